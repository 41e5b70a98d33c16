(** * RepoTests: the tests of the project (/repo/tests), stated about the model.

    Written by tools/gentests.py, which reads the test files as text. They are checks of the
    model's faithfulness, not proofs of properties. Hash, keys and signatures are those of
    Examples.v in place of SHA-256 and the cryptography library. *)
From Coq Require Import List NArith ZArith Bool String.
From Coq Require Import Strings.Byte.
From Verif Require Import Base PyVal B64 CaseConv Utf8 Url Json Cbor Types World Parsers Crypto
  Backends Registrars Jsonify Builders Der Asn1 Examples.
Import ListNotations.
Local Open Scope list_scope.

(** [with pytest.raises(cs)] *)
Definition raises {A} (cs : list libexn) (r : res A) : bool :=
  match r with Ok _ => false | Raise e => existsb (fun c => is_lib c e) cs end.
Definition returns {A} (r : res A) : bool := match r with Ok _ => true | Raise _ => false end.

(** [==] of values that may contain dicts, whose order does not count. *)
Fixpoint same (depth : nat) (a b : pyval) : bool :=
  match depth with
  | O => false
  | S d =>
      match a, b with
      | VDict x, VDict y =>
          Nat.eqb (List.length x) (List.length y) &&
          forallb (fun kv => match dict_find (fst kv) y with
                             | Some v => same d (snd kv) v | None => false end) x
      | VList x, VList y | VTuple x, VTuple y =>
          Nat.eqb (List.length x) (List.length y) &&
          forallb (fun p => same d (fst p) (snd p)) (combine x y)
      | _, _ => py_eq a b
      end
  end.

(** A registrar that always answers the same. *)
Definition constant_registrar (get : res (option cred_data)) (assert attest : reg_answer)
  : registrar unit :=
  {| r_get s _ := (s, get); r_assert s _ _ _ _ := (s, assert);
     r_attest s _ _ _ _ _ _ := (s, attest) |}.

Definition verify_case (k : pubkey) (data sig : bytes) (errors : list bytes) : bool :=
  returns (verify ex_world k sig data) &&
  forallb (fun s => raises [VerificationError] (verify ex_world k s data)) errors.

Definition through_cose (k : pubkey) : res pubkey :=
  match cose_dictionary k with
  | Ok d => parse_cose_key_bytes ex_world (dumps (VDict d))
  | Raise e => Raise e
  end.

Definition attested_as (ty : att_type) (ders : option (list bytes))
           (r : res (att_type * option (list cert))) : bool :=
  match r with
  | Ok (AT_BASIC, Some l) =>
      match ty, ders with AT_BASIC, Some ds =>
        Nat.eqb (List.length ds) (List.length l) &&
        forallb (fun p => bytes_eqb (fst p) (ce_der (snd p))) (combine ds l)
      | _, _ => false end
  | Ok (AT_NONE, None) => match ty, ders with AT_NONE, None => true | _, _ => false end
  | _ => false
  end.


(** ** /repo/tests/test_utils.py *)


(** tests/test_utils.py:10-20 *)
Example test_snake_to_camel_case :
  [ Ok (snake_to_camel ascii_unicode (lit ""));
    Ok (snake_to_camel ascii_unicode (lit "___"));
    Ok (snake_to_camel ascii_unicode (lit "a"));
    Ok (snake_to_camel ascii_unicode (lit "a_b_c"));
    Ok (snake_to_camel ascii_unicode (lit "a__b_c"));
    Ok (snake_to_camel ascii_unicode (lit "a__b__c"));
    Ok (snake_to_camel ascii_unicode (lit "_a__b__c"));
    Ok (snake_to_camel ascii_unicode (lit "_a__b__c_"));
    Ok (snake_to_camel ascii_unicode (lit "a_Bc_d"));
    Ok (snake_to_camel ascii_unicode (lit "a_BC_d")) ]
  = [ Ok (lit "");
    Ok (lit "");
    Ok (lit "a");
    Ok (lit "aBC");
    Ok (lit "aBC");
    Ok (lit "aBC");
    Ok (lit "aBC");
    Ok (lit "aBC");
    Ok (lit "aBcD");
    Ok (lit "aBCD") ].
Proof. vm_compute. reflexivity. Qed.

(** tests/test_utils.py:23-29 *)
Example test_camel_to_snake_case :
  [ Ok (camel_to_snake ascii_unicode (lit ""));
    Ok (camel_to_snake ascii_unicode (lit "a"));
    Ok (camel_to_snake ascii_unicode (lit "aBCD"));
    Ok (camel_to_snake ascii_unicode (lit "abCdEf"));
    Ok (camel_to_snake ascii_unicode (lit "abCDEf"));
    Ok (camel_to_snake ascii_unicode (lit "ab_cd_Ef")) ]
  = [ Ok (lit "");
    Ok (lit "a");
    Ok (lit "a_b_c_d");
    Ok (lit "ab_cd_ef");
    Ok (lit "ab_c_d_ef");
    Ok (lit "ab_cd__ef") ].
Proof. vm_compute. reflexivity. Qed.

(** tests/test_utils.py:32-35 *)
Example test_url_base64_encode :
  [ Ok (url_base64_encode []);
    Ok (url_base64_encode [xf8]);
    Ok (url_base64_encode [xfc]) ]
  = [ Ok (lit "");
    Ok (lit "-A==");
    Ok (lit "_A==") ].
Proof. vm_compute. reflexivity. Qed.

(** tests/test_utils.py:38-45 *)
Example test_url_base64_decode :
  [ url_base64_decode (lit "");
    url_base64_decode (lit "-A==");
    url_base64_decode (lit "_A==");
    url_base64_decode (lit "-A=");
    url_base64_decode (lit "_A=");
    url_base64_decode (lit "-A");
    url_base64_decode (lit "_A") ]
  = [ Ok [];
    Ok [xf8];
    Ok [xfc];
    Ok [xf8];
    Ok [xfc];
    Ok [xf8];
    Ok [xfc] ].
Proof. vm_compute. reflexivity. Qed.

(** tests/test_utils.py:48-54 *)
Example test_curve_coordinate_byte_length :
  forallb (fun c => Nat.ltb 0 (curve_coordinate_byte_length c))
  [(FName, P_256); (FName, P_384); (FName, P_521); (FValue, P_256); (FValue, P_384); (FValue, P_521); (FName, ED25519); (FName, ED448); (FValue, ED25519); (FValue, ED448)] = true.
Proof. vm_compute. reflexivity. Qed.

(** tests/test_utils.py:57-66 *)
Example test_ec2_hash_algorithm_success :
  forallb (fun b : bool => b)
  [ (returns) (ec2_hash_algorithm (FName, ES256));
    (returns) (ec2_hash_algorithm (FName, ES256));
    (returns) (ec2_hash_algorithm (FName, ES256));
    (returns) (ec2_hash_algorithm (FValue, ES256));
    (returns) (ec2_hash_algorithm (FValue, ES256));
    (returns) (ec2_hash_algorithm (FValue, ES256)) ] = true.
Proof. vm_compute. reflexivity. Qed.

(** tests/test_utils.py:69-75 *)
Example test_ec2_hash_algorithm_error :
  [ec2_hash_algorithm (FName, EDDSA); ec2_hash_algorithm (FValue, EDDSA)] = [Raise (Py EAssertionError); Raise (Py EAssertionError)].
Proof. vm_compute. reflexivity. Qed.

(** ** /repo/tests/test_validators.py *)


(** tests/test_validators.py:17-29 *)
Example test_validate_success :
  forallb (fun b : bool => b)
  [ (returns) (validate (EC2Key {| kb_kty := (FValue, KT_EC2); kb_kid := None; kb_alg := (Some (FValue, ES256)); kb_key_ops := None; kb_base_IV := None |} [x00; xf1; x7f; x5c; x41; x4c; x34; x3c; x10; x27; xc4; xd1; xc3; x86; xbb; xc4; xcd; x61; x3e; x30; xd8; xf1; x6a; xdf; x91; xb7; x58; x4a; x22; x65; xb1; xf5] [x01; xad; xfc; xc9; xc9; xe9; xc6; x16; x61; x2e; x76; x96; xa6; xce; xcc; x1b; x78; xe5; x10; x61; x73; x11; xd8; xa3; xc2; xce; x6f; x44; x7e; xd4; xd5; x7b] (FValue, P_256)));
    (returns) (validate (EC2Key {| kb_kty := (FValue, KT_EC2); kb_kid := None; kb_alg := (Some (FValue, ES384)); kb_key_ops := None; kb_base_IV := None |} [x00; x2d; xb7; x37; x07; xd4; xbe; xdc; x51; x43; x11; x93; xe6; xc3; xf3; x39; x1a; x2b; x8f; x1f; xf1; xfd; x42; xa2; x97; x55; xd4; xc1; x3a; x90; x29; x31] [x03; x54; x56; x25; x05; x80; x59; x75; xed; x2f; x89; xd9; x4a; x2f; x20; xaa; xf3; xc6; x4a; xf7; x75; xa8; x92; x94; xc2; xcd; x78; x9a; x38; x02; x08; xa9] (FValue, P_256)));
    (returns) (validate (EC2Key {| kb_kty := (FValue, KT_EC2); kb_kid := None; kb_alg := (Some (FValue, ES512)); kb_key_ops := None; kb_base_IV := None |} [x01; x4f; x41; x0d; xc7; x48; x03; xe3; x1b; xa1; x62; x15; x82; x28; x3d; x15; xa9; xec; x08; x06; x70; x5f; xca; x16; x16; x22; xbd; x79; x5f; xec; x89; x8f] [x03; xc1; x2a; xeb; x07; x92; x39; x86; xbb; x96; x8a; x43; x7d; x5c; x8d; xfc; x5e; xda; x92; xd8; x64; xac; x5d; xb9; xd7; x07; x10; x7e; x85; x5c; x38; x44] (FValue, P_256)));
    (returns) (validate (EC2Key {| kb_kty := (FValue, KT_EC2); kb_kid := None; kb_alg := (Some (FValue, ES256)); kb_key_ops := None; kb_base_IV := None |} [x00; x00; x00; x00; x00; x00; x00; x00; x00; x00; x00; x00; x00; x00; x00; x00; x00; x19; x31; x92; xfb; x69; x5f; xfb; x3a; x18; x90; xc7; x80; x92; xb4; xd4; x2b; x28; xfe; xf0; x2b; x9c; x01; x4e; xa5; xac; x06; xd8; x64; xc2; xf2; xe3] [x00; x00; x00; x00; x00; x00; x00; x00; x00; x00; x00; x00; x00; x00; x00; x00; x03; x3c; x52; xd5; x3b; x6f; xe5; x07; x8c; x5f; xe8; xf8; xdc; x3b; xf3; x64; xeb; x8a; xc8; xce; x8a; x24; x5e; x6b; x33; x13; x81; x31; xc5; x41; x01; x3d] (FValue, P_384)));
    (returns) (validate (EC2Key {| kb_kty := (FValue, KT_EC2); kb_kid := None; kb_alg := (Some (FValue, ES384)); kb_key_ops := None; kb_base_IV := None |} [x00; x00; x00; x00; x00; x00; x00; x00; x00; x00; x00; x00; x00; x00; x00; x00; x03; x11; xcb; xde; x01; x76; x27; x41; xba; xb9; xf8; x7f; xf5; x05; x92; x85; x9b; xe3; xce; xcb; x8c; x49; x7c; x68; xa8; xc2; x4d; x42; x44; xef; x7f; xeb] [x00; x00; x00; x00; x00; x00; x00; x00; x00; x00; x00; x00; x00; x00; x00; x00; x00; x03; x3e; xdd; x58; x98; x90; x08; x6a; x17; xb9; xaf; x5b; x56; x96; x43; xd0; x37; xcd; xff; x7c; x24; x0d; x49; x69; xd4; x95; xdd; x81; x35; x5c; x53] (FValue, P_384)));
    (returns) (validate (EC2Key {| kb_kty := (FValue, KT_EC2); kb_kid := None; kb_alg := (Some (FValue, ES512)); kb_key_ops := None; kb_base_IV := None |} [x00; x00; x00; x00; x00; x00; x00; x00; x00; x00; x00; x00; x00; x00; x00; x00; x01; x72; x3e; xe0; x95; x9f; x3a; x51; x8c; xfe; x5c; xd1; x2d; x5d; xb7; x9b; xa2; xa7; xae; x1f; x3a; xc7; x65; x2c; xcd; xf8; x44; x04; x07; x29; x5e; x42] [x00; x00; x00; x00; x00; x00; x00; x00; x00; x00; x00; x00; x00; x00; x00; x00; x02; x26; x2d; xa3; x3f; xe3; x1d; x03; x47; xfc; x81; x6a; xc1; x6e; x22; x84; xc1; x0f; xaa; x40; x03; xba; x33; xdb; x73; xf7; xba; x8e; x04; x45; xd6; x56] (FValue, P_384)));
    (returns) (validate (EC2Key {| kb_kty := (FValue, KT_EC2); kb_kid := None; kb_alg := (Some (FValue, ES256)); kb_key_ops := None; kb_base_IV := None |} [x00; x00; x00; x00; x00; x00; x00; x00; x00; x00; x00; x00; x00; x00; x00; x00; x00; x00; x00; x00; x00; x00; x00; x00; x00; x00; x00; x00; x00; x00; x00; x00; x00; x00; x01; x56; xfa; xac; x11; xcb; xc2; x88; x4a; x50; x12; xdc; x58; x2c; x18; xc9; x2f; x42; x9c; xe5; x9f; xf3; x07; x8f; xcc; x1b; x0c; x3e; x1c; x07; x72; x4e] [x00; x00; x00; x00; x00; x00; x00; x00; x00; x00; x00; x00; x00; x00; x00; x00; x00; x00; x00; x00; x00; x00; x00; x00; x00; x00; x00; x00; x00; x00; x00; x00; x00; x00; x00; xe9; xdc; xc9; x79; x49; x0e; xab; x7f; x1a; x35; x5e; x52; x6e; xb5; x23; xb3; xdf; x44; xa4; x74; x67; x53; x7a; x4b; x63; xe0; xef; xb6; x2a; xc1; xfe] (FValue, P_521)));
    (returns) (validate (EC2Key {| kb_kty := (FValue, KT_EC2); kb_kid := None; kb_alg := (Some (FValue, ES384)); kb_key_ops := None; kb_base_IV := None |} [x00; x00; x00; x00; x00; x00; x00; x00; x00; x00; x00; x00; x00; x00; x00; x00; x00; x00; x00; x00; x00; x00; x00; x00; x00; x00; x00; x00; x00; x00; x00; x00; x00; x00; x02; x11; x3e; xf1; x30; x23; x58; x0c; xcb; xd3; xf5; xe0; x6b; xc1; x53; x85; x57; xe5; x4a; xcc; x62; xf5; x68; x0c; x4f; xdf; x8e; x1a; x06; x0c; xea; x63] [x00; x00; x00; x00; x00; x00; x00; x00; x00; x00; x00; x00; x00; x00; x00; x00; x00; x00; x00; x00; x00; x00; x00; x00; x00; x00; x00; x00; x00; x00; x00; x00; x00; x00; x03; x2d; xb3; xae; x04; x92; xc4; xf5; x39; xb2; x1c; x95; x05; x54; x55; xe8; xf9; xbd; xde; xa5; xd1; x29; x82; xe4; x6e; x80; xfa; x48; x9b; x0b; xca; x16] (FValue, P_521)));
    (returns) (validate (EC2Key {| kb_kty := (FValue, KT_EC2); kb_kid := None; kb_alg := (Some (FValue, ES512)); kb_key_ops := None; kb_base_IV := None |} [x00; x00; x00; x00; x00; x00; x00; x00; x00; x00; x00; x00; x00; x00; x00; x00; x00; x00; x00; x00; x00; x00; x00; x00; x00; x00; x00; x00; x00; x00; x00; x00; x00; x00; x00; x3e; xdf; xc9; xa6; x04; x84; x57; x86; x1e; x02; xec; x39; x23; x5b; xc0; x73; x6a; x94; x7a; x84; x3f; xdd; xa7; xb1; xee; xda; xff; xcc; x3d; x55; x06] [x00; x00; x00; x00; x00; x00; x00; x00; x00; x00; x00; x00; x00; x00; x00; x00; x00; x00; x00; x00; x00; x00; x00; x00; x00; x00; x00; x00; x00; x00; x00; x00; x00; x00; x03; x69; x0f; xa6; xa1; x85; xcc; x8e; xa8; xea; x37; xf7; x52; x3d; x2a; x54; xcd; xaa; xac; x43; x93; x6a; xa4; x0c; xac; xc6; x6a; x57; x65; x18; x09; x3d] (FValue, P_521)));
    (returns) (validate (OKPKey {| kb_kty := (FValue, KT_OKP); kb_kid := None; kb_alg := (Some (FValue, EDDSA)); kb_key_ops := None; kb_base_IV := None |} (FValue, ED25519) [x1e; x98; x40; x6c; x18; x9c; x24; x27; x9e; x98; x51; xd5; x81; x42; x04; x13; x6f; xeb; x57; x13; xc1; x66; xb1; x32; x69; xdd; x63; xfc; x35; xc7; x97; xff]));
    (returns) (validate (OKPKey {| kb_kty := (FValue, KT_OKP); kb_kid := None; kb_alg := (Some (FValue, EDDSA)); kb_key_ops := None; kb_base_IV := None |} (FValue, ED448) [x08; xa6; xcd; x90; x09; x50; x66; xa7; x45; xad; xdb; x6d; x88; x31; xc2; xb0; xf8; x78; x21; x14; x2b; x44; x56; x55; x6d; x89; xaa; x82; xbc; xad; xae; x3a; x95; x78; xfa; x45; x35; xa4; x14; xd0; x25; xc2; x4b; x40; xae; x3a; xc1; x27; x72; x29; x88; xba; x97; x3a; xea; x8d; x37])) ] = true.
Proof. vm_compute. reflexivity. Qed.

(** tests/test_validators.py:41-72 *)
Example test_validate_error :
  forallb (fun b : bool => b)
  [ (raises [ValidationError]) (validate (EC2Key {| kb_kty := (FValue, KT_EC2); kb_kid := None; kb_alg := (Some (FValue, ES256)); kb_key_ops := None; kb_base_IV := None |} [x00; x1d; xcb; x6c; xab; xa0; x18; xea; x9d; x19; xee; x45; x03; x2b; x73; x28; x4b; xb5; x7b; x5c; xd3; xe8; x9d; x32; x0b; xb6; x62; xa8; xc9; x79; xcb; x06] [x01; x80; xdd; x4c; x0a; x3e; xfb; x80; xca; x35; x75; x68; xe2; x93; x4b; xf1; xd3; x7c; x99; x61; x1d; x77; x5b; x7c; x69; xdd; x64; x93; x17; x78; x8b; x95] (FValue, ED25519)));
    (raises [ValidationError]) (validate (EC2Key {| kb_kty := (FValue, KT_EC2); kb_kid := None; kb_alg := (Some (FValue, ES256)); kb_key_ops := None; kb_base_IV := None |} [x03; x9b; x75; xfa; x1d; x95; x38; x9b; x29; x7a; x21; xd7; x6b; xc7; x8b; xf5; x96; x38; x0e; xd6; xfc; xf7; xf4; x9d; xc9; x17; x52; xa3; x3d; x58; x9c; xab] [x03; x7b; x17; x31; x1a; x53; x56; xb5; xd8; x53; x28; xb6; xbe; x77; x34; x48; x28; xb0; x9a; x93; x3d; xcd; xb8; x56; xae; x4e; xcf; x4b; x2a; xd9; xa4; x0a] (FValue, ED448)));
    (raises [ValidationError]) (validate (EC2Key {| kb_kty := (FValue, KT_EC2); kb_kid := None; kb_alg := (Some (FValue, ES384)); kb_key_ops := None; kb_base_IV := None |} [x01; xa9; x31; xda; x19; xa2; x10; x5c; x50; x80; x6f; x01; x7a; x1d; x55; x6c; xb6; x2c; x22; x8e; x40; xdf; x7c; x9a; x8c; xda; x80; xa3; x4b; x45; x21; x23] [x03; x30; x3d; xb0; x50; x33; x2c; xb8; x64; x2a; x35; x7c; x73; x29; x02; xf4; x51; xfb; xfc; xc7; x98; xb8; xda; x9f; xb9; xfa; xd6; x7e; x4b; xa9; x27; xc3] (FValue, ED25519)));
    (raises [ValidationError]) (validate (EC2Key {| kb_kty := (FValue, KT_EC2); kb_kid := None; kb_alg := (Some (FValue, ES384)); kb_key_ops := None; kb_base_IV := None |} [x03; xa5; x98; xdf; xf8; x44; x95; x60; x99; xf8; x6c; x8d; xf8; x45; xae; xd9; x51; x3d; xd1; xa6; xe9; xd4; x0f; x2b; x10; x6e; xe2; xab; x10; x1e; x75; xeb] [x01; x77; x3d; x7c; x42; x53; x75; xbe; x5b; x17; x7a; x38; xa9; x6d; xfb; x2c; x78; x0b; x25; xd9; xb0; x2d; x35; x04; xde; x1b; xf0; xcd; x8a; xfc; x5b; xee] (FValue, ED448)));
    (raises [ValidationError]) (validate (EC2Key {| kb_kty := (FValue, KT_EC2); kb_kid := None; kb_alg := (Some (FValue, ES512)); kb_key_ops := None; kb_base_IV := None |} [x00; x54; x13; x34; x4e; x89; x6a; x65; xf7; x72; xf8; xea; x63; xf6; x66; xe0; x3a; x38; x9b; x09; xf0; xd3; xfa; x5c; x56; xc1; x16; x69; xa4; xba; x31; x61] [x03; x36; xd5; x1b; x3e; x67; x02; x6c; xce; xea; x59; x0b; x05; x37; x3b; x76; x38; x5c; x1b; x33; x3e; xbe; xbe; x3e; x17; x90; x30; xda; x98; x91; x00; x52] (FValue, ED25519)));
    (raises [ValidationError]) (validate (EC2Key {| kb_kty := (FValue, KT_EC2); kb_kid := None; kb_alg := (Some (FValue, ES512)); kb_key_ops := None; kb_base_IV := None |} [x00; x2c; x0f; x92; x13; x3b; xb4; xc2; xba; xaa; xd6; x51; x12; x27; x93; x2f; xde; x18; x27; x47; x8d; x1b; xc1; x3a; x44; x9f; xd4; x9b; x12; x84; x0e; xa1] [x03; xc0; x2c; x3f; x7e; x46; x5b; x19; x5b; xf3; xf7; x4d; xca; xcc; x9e; xc8; xc0; x2f; xc2; x2a; x4a; x73; x47; xfa; x02; x89; xeb; x06; xa2; xa8; x66; xb4] (FValue, ED448)));
    (raises [ValidationError]) (validate (EC2Key {| kb_kty := (FValue, KT_EC2); kb_kid := None; kb_alg := (Some (FValue, EDDSA)); kb_key_ops := None; kb_base_IV := None |} [x02; x9f; xef; x83; xcb; x84; x09; xd6; xc7; x1a; x5b; x11; x80; x5d; xb0; x6a; x19; xd6; xd7; x3b; x27; x78; x50; x7c; xdb; xee; xf7; x7a; xdc; xd6; x90; x29] [x01; x32; x4e; x0d; xc6; xb5; xa1; xc6; x2d; xf8; x10; xb9; x2c; x59; x98; x59; xaa; x4d; xa8; x22; xf3; x00; x9a; x5c; x82; x5f; x85; x42; x13; xbd; x48; x8e] (FValue, ED25519)));
    (raises [ValidationError]) (validate (EC2Key {| kb_kty := (FValue, KT_EC2); kb_kid := None; kb_alg := (Some (FValue, EDDSA)); kb_key_ops := None; kb_base_IV := None |} [x01; xa7; x67; x97; xe4; xcd; x60; x75; x20; x55; x2f; x5f; x4b; x22; x20; xa4; x9a; x15; xa3; x11; xeb; x5a; xf9; xf9; xd5; xae; x30; x5b; x83; xac; xfb; x7e] [x02; x00; x73; x3f; x8c; x9c; xf4; x40; x6e; x1f; xb6; xad; xce; xe9; xa4; xfd; x72; x5a; x9a; x5b; xf6; xa0; x75; x00; xae; x9c; x85; x63; x10; x7d; x72; xd5] (FValue, ED448)));
    (raises [ValidationError]) (validate (EC2Key {| kb_kty := (FValue, KT_EC2); kb_kid := None; kb_alg := (Some (FValue, ES256)); kb_key_ops := None; kb_base_IV := None |} [x00; x00; x00; x00; x00; x00; x00; x00; x00; x00; x00; x00; x00; x00; x00; x00; x02; x37; x1e; xdc; xd4; x35; x0b; x28; xfb; xb4; x1d; x14; x42; x55; x3a; x33; x23; x74; x75; xe1; x20; x08; x74; x97; x97; xf2; xa7; x02; x23; x66; x96; x76] [x00; x00; x00; x00; x00; x00; x00; x00; x00; x00; x00; x00; x00; x00; x00; x00; x03; xe3; x52; x3d; x3b; xc8; x99; x6b; x16; xd8; xe8; x0e; x9c; xc9; x30; xd3; x2c; x13; x9c; x19; x66; xad; x51; xfd; x90; x67; x04; xc3; x65; xd6; x0b; x6e] (FValue, ED25519)));
    (raises [ValidationError]) (validate (EC2Key {| kb_kty := (FValue, KT_EC2); kb_kid := None; kb_alg := (Some (FValue, ES256)); kb_key_ops := None; kb_base_IV := None |} [x00; x00; x00; x00; x00; x00; x00; x00; x00; x00; x00; x00; x00; x00; x00; x00; x02; x80; xfe; x37; x3d; x06; x1f; x79; x39; xc9; x7a; xb1; xbb; x3e; x78; x0f; xa3; x9c; xc4; xb2; xaf; xbf; x53; x10; xee; x1b; x8c; xc4; x70; x35; x8a; x27] [x00; x00; x00; x00; x00; x00; x00; x00; x00; x00; x00; x00; x00; x00; x00; x00; x02; xb2; x13; xa0; x69; x88; xf6; x68; xb6; x7d; x15; x3d; x39; x9d; xab; x3c; xf4; xdf; xc9; xa5; x7a; x94; x66; x02; xaf; xdb; xe9; xd2; x7e; xbd; x0e; x05] (FValue, ED448)));
    (raises [ValidationError]) (validate (EC2Key {| kb_kty := (FValue, KT_EC2); kb_kid := None; kb_alg := (Some (FValue, ES384)); kb_key_ops := None; kb_base_IV := None |} [x00; x00; x00; x00; x00; x00; x00; x00; x00; x00; x00; x00; x00; x00; x00; x00; x01; xa1; x79; x15; xe2; x0c; xea; x4a; xca; xdf; xf9; x18; xc4; x1a; x66; xd9; x82; xfa; x4d; x7a; x28; xd2; xe0; x8e; x5e; x62; x79; xdb; xe0; x9e; xdd; x5a] [x00; x00; x00; x00; x00; x00; x00; x00; x00; x00; x00; x00; x00; x00; x00; x00; x01; x52; x49; x37; x5f; x22; x1d; xfc; x8d; x64; xb3; xad; xd9; x57; x7b; x6b; x4c; xb0; x5e; xc1; xb1; x4b; x69; xdc; x4c; x78; xc7; xab; x4f; xd2; x42; x06] (FValue, ED25519)));
    (raises [ValidationError]) (validate (EC2Key {| kb_kty := (FValue, KT_EC2); kb_kid := None; kb_alg := (Some (FValue, ES384)); kb_key_ops := None; kb_base_IV := None |} [x00; x00; x00; x00; x00; x00; x00; x00; x00; x00; x00; x00; x00; x00; x00; x00; x00; xfc; x67; x4b; xdb; x34; xfa; x8d; x15; xc0; xcd; xd5; x98; x36; x40; x4c; x76; xfb; xb6; xed; xbc; x85; xe5; xde; xb3; x86; xd2; x5c; xb3; x87; x42; xad] [x00; x00; x00; x00; x00; x00; x00; x00; x00; x00; x00; x00; x00; x00; x00; x00; x01; x3f; x09; x2d; x2d; x20; x6a; xda; x60; x90; x07; x72; x92; x3c; x4e; x5d; x83; x92; x4f; x05; xf5; xc7; xb9; xaa; x9b; x29; xb5; x4b; xe5; x87; xdd; x21] (FValue, ED448)));
    (raises [ValidationError]) (validate (EC2Key {| kb_kty := (FValue, KT_EC2); kb_kid := None; kb_alg := (Some (FValue, ES512)); kb_key_ops := None; kb_base_IV := None |} [x00; x00; x00; x00; x00; x00; x00; x00; x00; x00; x00; x00; x00; x00; x00; x00; x03; x12; x62; x5b; x59; x15; x50; xff; xa3; x10; xa8; x49; xb7; x97; x5b; x28; x64; xc3; x71; xcf; xae; x7f; xba; x11; x7e; xba; x03; x52; x0d; x58; x9a; x58] [x00; x00; x00; x00; x00; x00; x00; x00; x00; x00; x00; x00; x00; x00; x00; x00; x03; x07; xe2; x3f; x3f; x8b; x1b; xaa; x47; x15; x8a; x7e; x4b; xa4; x48; x98; xa9; x17; x2a; x05; x1e; x3b; x25; xe5; xe8; xc7; xa0; x1d; x68; x81; x5f; xda] (FValue, ED25519)));
    (raises [ValidationError]) (validate (EC2Key {| kb_kty := (FValue, KT_EC2); kb_kid := None; kb_alg := (Some (FValue, ES512)); kb_key_ops := None; kb_base_IV := None |} [x00; x00; x00; x00; x00; x00; x00; x00; x00; x00; x00; x00; x00; x00; x00; x00; x02; x15; x4a; xe9; xd5; xd8; x57; x5d; x3e; x03; x63; x33; x9b; x0a; x68; x17; xf9; x1c; x85; xfd; xa0; xa5; x95; x18; x07; xe3; x0f; x11; x05; x62; x87; x48] [x00; x00; x00; x00; x00; x00; x00; x00; x00; x00; x00; x00; x00; x00; x00; x00; x02; x7d; x34; xb0; x45; xf2; x1e; x94; x33; x50; x82; xdc; x8a; xd6; xc1; xc4; x25; xfe; x3a; x18; x48; xe7; x72; xba; x2c; x40; x0b; x95; x34; xe4; x1e; x75] (FValue, ED448)));
    (raises [ValidationError]) (validate (EC2Key {| kb_kty := (FValue, KT_EC2); kb_kid := None; kb_alg := (Some (FValue, EDDSA)); kb_key_ops := None; kb_base_IV := None |} [x00; x00; x00; x00; x00; x00; x00; x00; x00; x00; x00; x00; x00; x00; x00; x00; x03; x5c; x17; x6a; x7d; xa5; xad; x52; x5b; x61; x6e; x42; x8b; x9d; xd3; xd4; x2b; x00; xb5; x70; xf9; x3e; xe7; xcc; xda; xe7; x20; xb2; xcf; x03; xfd; x21] [x00; x00; x00; x00; x00; x00; x00; x00; x00; x00; x00; x00; x00; x00; x00; x00; x01; xa3; x79; x94; x62; x1d; x17; x33; xe1; x01; x8c; xc5; x92; x0f; x36; x63; x35; x7d; x6f; x2e; xc4; xe1; x99; xa1; x1f; x2e; x49; x0c; xdb; x0f; x01; x26] (FValue, ED25519)));
    (raises [ValidationError]) (validate (EC2Key {| kb_kty := (FValue, KT_EC2); kb_kid := None; kb_alg := (Some (FValue, EDDSA)); kb_key_ops := None; kb_base_IV := None |} [x00; x00; x00; x00; x00; x00; x00; x00; x00; x00; x00; x00; x00; x00; x00; x00; x02; x96; xe9; xa6; x87; x44; xd3; xc0; xc2; x34; x47; x2f; x5b; x58; x79; x6a; xad; x61; x1a; x3e; x80; xc6; xbc; xbd; x6f; xea; x51; xca; x4f; xae; x2c; xf5] [x00; x00; x00; x00; x00; x00; x00; x00; x00; x00; x00; x00; x00; x00; x00; x00; x00; xe7; x9e; x8b; x7e; x07; x50; xea; x92; x48; x41; x94; xae; xf4; x25; x9c; xbb; x2b; x92; xc3; xc8; x78; x68; xfa; x56; xe0; xa2; x46; x66; x3f; x42; x3b] (FValue, ED448)));
    (raises [ValidationError]) (validate (EC2Key {| kb_kty := (FValue, KT_EC2); kb_kid := None; kb_alg := (Some (FValue, ES256)); kb_key_ops := None; kb_base_IV := None |} [x00; x00; x00; x00; x00; x00; x00; x00; x00; x00; x00; x00; x00; x00; x00; x00; x00; x00; x00; x00; x00; x00; x00; x00; x00; x00; x00; x00; x00; x00; x00; x00; x00; x00; x02; xb0; x26; x1d; x67; xbe; x99; x98; xf8; x66; x68; xc1; x6d; x05; xc8; x18; x94; x50; x08; x5b; x63; xa0; x29; xa5; xad; xb5; x55; x56; x00; xe6; xa3; x05] [x00; x00; x00; x00; x00; x00; x00; x00; x00; x00; x00; x00; x00; x00; x00; x00; x00; x00; x00; x00; x00; x00; x00; x00; x00; x00; x00; x00; x00; x00; x00; x00; x00; x00; x01; x3f; xa9; x7d; xa1; x17; x51; x1f; xb8; xa6; x17; x15; x68; x31; x15; xa8; x05; x51; x98; xc0; xa1; x32; x67; x97; x4a; x77; x81; x4e; xa6; x14; x2e; x5b] (FValue, ED25519)));
    (raises [ValidationError]) (validate (EC2Key {| kb_kty := (FValue, KT_EC2); kb_kid := None; kb_alg := (Some (FValue, ES256)); kb_key_ops := None; kb_base_IV := None |} [x00; x00; x00; x00; x00; x00; x00; x00; x00; x00; x00; x00; x00; x00; x00; x00; x00; x00; x00; x00; x00; x00; x00; x00; x00; x00; x00; x00; x00; x00; x00; x00; x00; x00; x01; x6c; xda; x79; xd8; xa5; x06; x36; x45; x2f; xac; x9a; xc8; x50; x32; x0a; x65; xb6; x99; xec; xef; xe6; xf6; x75; xc7; x63; x30; xaf; xa2; x3c; x4b; x27] [x00; x00; x00; x00; x00; x00; x00; x00; x00; x00; x00; x00; x00; x00; x00; x00; x00; x00; x00; x00; x00; x00; x00; x00; x00; x00; x00; x00; x00; x00; x00; x00; x00; x00; x02; x6d; xe9; xee; x8b; x53; xc1; x6b; xaf; x5e; x49; x0b; xdf; xba; xaa; xfa; x69; x40; x77; x6c; xb5; x40; xcc; xe4; xcc; x5d; x37; x5a; x43; xbb; xba; x66] (FValue, ED448)));
    (raises [ValidationError]) (validate (EC2Key {| kb_kty := (FValue, KT_EC2); kb_kid := None; kb_alg := (Some (FValue, ES384)); kb_key_ops := None; kb_base_IV := None |} [x00; x00; x00; x00; x00; x00; x00; x00; x00; x00; x00; x00; x00; x00; x00; x00; x00; x00; x00; x00; x00; x00; x00; x00; x00; x00; x00; x00; x00; x00; x00; x00; x00; x00; x00; x8e; xdb; x56; x6c; x2f; x5e; xcc; x97; x33; xef; x95; xbe; xa7; xc8; x79; x19; x3f; xd2; x4d; x82; xa1; xc5; x4c; x45; x54; x7d; x9d; x0b; x9e; x8d; x4d] [x00; x00; x00; x00; x00; x00; x00; x00; x00; x00; x00; x00; x00; x00; x00; x00; x00; x00; x00; x00; x00; x00; x00; x00; x00; x00; x00; x00; x00; x00; x00; x00; x00; x00; x02; x34; xd4; x51; xb0; x5c; x4a; x59; xa2; xcf; x17; x9f; x66; xe4; x79; x27; x17; xd2; x59; xad; xb0; xc1; x2c; x60; x29; x60; x65; x98; xf2; x35; x62; xb7] (FValue, ED25519)));
    (raises [ValidationError]) (validate (EC2Key {| kb_kty := (FValue, KT_EC2); kb_kid := None; kb_alg := (Some (FValue, ES384)); kb_key_ops := None; kb_base_IV := None |} [x00; x00; x00; x00; x00; x00; x00; x00; x00; x00; x00; x00; x00; x00; x00; x00; x00; x00; x00; x00; x00; x00; x00; x00; x00; x00; x00; x00; x00; x00; x00; x00; x00; x00; x02; xab; xeb; x94; xe2; xd2; x8d; xa8; x3c; xbb; x56; x15; x35; x2c; x5f; x80; x87; x31; x16; xf0; x35; x79; xc6; x7e; x4d; xed; x5f; xaa; x9a; xe0; xe1; xb9] [x00; x00; x00; x00; x00; x00; x00; x00; x00; x00; x00; x00; x00; x00; x00; x00; x00; x00; x00; x00; x00; x00; x00; x00; x00; x00; x00; x00; x00; x00; x00; x00; x00; x00; x02; x60; x00; xa8; x2b; x26; x54; x42; x0c; xbb; xea; xb0; xbc; x9a; x0e; x0c; x8e; xc2; x36; x15; x82; xf2; xe7; x70; x77; xca; xb1; xf9; x5e; x42; xe3; xe0] (FValue, ED448)));
    (raises [ValidationError]) (validate (EC2Key {| kb_kty := (FValue, KT_EC2); kb_kid := None; kb_alg := (Some (FValue, ES512)); kb_key_ops := None; kb_base_IV := None |} [x00; x00; x00; x00; x00; x00; x00; x00; x00; x00; x00; x00; x00; x00; x00; x00; x00; x00; x00; x00; x00; x00; x00; x00; x00; x00; x00; x00; x00; x00; x00; x00; x00; x00; x02; xd8; xc8; xb6; x45; x0f; x08; x64; x8e; x65; xe4; xcf; xd0; xa4; x10; xda; xff; x11; xdc; x91; xb6; xa3; xce; x92; xbc; x2e; x9f; xf5; xa7; x2f; x66; x00] [x00; x00; x00; x00; x00; x00; x00; x00; x00; x00; x00; x00; x00; x00; x00; x00; x00; x00; x00; x00; x00; x00; x00; x00; x00; x00; x00; x00; x00; x00; x00; x00; x00; x00; x03; xde; x76; x42; x2c; x1f; xfa; xcc; x66; x53; xc3; xb7; x8f; xa0; x9f; xa2; x64; x7e; xc1; x54; x3b; x6b; xd0; xa4; xbd; x66; x79; xc0; x9c; x13; x17; xa3] (FValue, ED25519)));
    (raises [ValidationError]) (validate (EC2Key {| kb_kty := (FValue, KT_EC2); kb_kid := None; kb_alg := (Some (FValue, ES512)); kb_key_ops := None; kb_base_IV := None |} [x00; x00; x00; x00; x00; x00; x00; x00; x00; x00; x00; x00; x00; x00; x00; x00; x00; x00; x00; x00; x00; x00; x00; x00; x00; x00; x00; x00; x00; x00; x00; x00; x00; x00; x02; x11; xf4; xb6; x38; xe9; xde; x81; xb7; x4f; x34; x10; x54; x63; x85; x2d; x9c; x43; x47; x23; xdd; xe1; x38; xd8; x42; x70; x05; xf6; xca; x2e; x36; x11] [x00; x00; x00; x00; x00; x00; x00; x00; x00; x00; x00; x00; x00; x00; x00; x00; x00; x00; x00; x00; x00; x00; x00; x00; x00; x00; x00; x00; x00; x00; x00; x00; x00; x00; x01; x4c; xdf; x91; x86; xce; xc1; x33; x75; x9a; xae; xee; x43; x11; x62; xa4; xf2; x0a; xb3; x05; x9b; x33; xd9; x47; x25; xef; x21; x14; xba; x6e; x73; x6c] (FValue, ED448)));
    (raises [ValidationError]) (validate (EC2Key {| kb_kty := (FValue, KT_EC2); kb_kid := None; kb_alg := (Some (FValue, EDDSA)); kb_key_ops := None; kb_base_IV := None |} [x00; x00; x00; x00; x00; x00; x00; x00; x00; x00; x00; x00; x00; x00; x00; x00; x00; x00; x00; x00; x00; x00; x00; x00; x00; x00; x00; x00; x00; x00; x00; x00; x00; x00; x02; x7a; x64; x6d; x5c; x70; x61; x06; x70; xd0; x7e; xba; xb7; x3b; x60; x62; xe4; xd4; xad; x86; x23; x5a; x63; xd5; xc7; x49; x5d; xf9; x23; x7c; x95; x40] [x00; x00; x00; x00; x00; x00; x00; x00; x00; x00; x00; x00; x00; x00; x00; x00; x00; x00; x00; x00; x00; x00; x00; x00; x00; x00; x00; x00; x00; x00; x00; x00; x00; x00; x00; x2f; xaf; x38; x98; xf6; xa6; x44; xcf; x39; xef; xd7; x0e; x2a; xf6; x41; x0b; x83; xda; x50; x2f; xcf; x96; x16; xf4; x8f; xe7; xd3; x19; x97; xe8; xf3] (FValue, ED25519)));
    (raises [ValidationError]) (validate (EC2Key {| kb_kty := (FValue, KT_EC2); kb_kid := None; kb_alg := (Some (FValue, EDDSA)); kb_key_ops := None; kb_base_IV := None |} [x00; x00; x00; x00; x00; x00; x00; x00; x00; x00; x00; x00; x00; x00; x00; x00; x00; x00; x00; x00; x00; x00; x00; x00; x00; x00; x00; x00; x00; x00; x00; x00; x00; x00; x01; xc6; xca; x18; x18; x61; x0c; x9f; x2c; x35; x4a; x1b; xb1; x50; xa7; x8d; x9c; xfd; x71; x7d; x1e; x39; xa5; x4c; x46; x4a; x82; x96; xd6; x7e; x8e; xcf] [x00; x00; x00; x00; x00; x00; x00; x00; x00; x00; x00; x00; x00; x00; x00; x00; x00; x00; x00; x00; x00; x00; x00; x00; x00; x00; x00; x00; x00; x00; x00; x00; x00; x00; x03; x1d; xe3; x30; x94; x76; x78; xf5; x8c; x09; x78; x6b; x76; x6b; x5e; x3c; x48; x9c; xba; xff; xd1; xf5; x59; xaf; x3c; x59; x3e; x7f; x3b; x51; xd3; x75] (FValue, ED448)));
    (raises [ValidationError]) (validate (OKPKey {| kb_kty := (FValue, KT_OKP); kb_kid := None; kb_alg := (Some (FValue, ES256)); kb_key_ops := None; kb_base_IV := None |} (FValue, P_256) [x6c; xe7; x84; xa9; xfe; x38; x6d; x28; x17; x07; x02; xf5; xa3; xc4; x93; x64; xcc; x51; x4d; x0f; x07; xc6; x4a; x1d; xc2; x82; x42; x28; xec; x9b; x07; x12]));
    (raises [ValidationError]) (validate (OKPKey {| kb_kty := (FValue, KT_OKP); kb_kid := None; kb_alg := (Some (FValue, ES256)); kb_key_ops := None; kb_base_IV := None |} (FValue, P_384) [x1f; x42; x15; x8c; x3c; xdd; x2e; x61; x0e; xff; x42; x8e; x62; xe5; xc7; xa8; x89; x85; x7c; x7d; x1e; x59; xb3; xdb; x1f; xb4; xd3; x66; xd9; x23; x88; x25]));
    (raises [ValidationError]) (validate (OKPKey {| kb_kty := (FValue, KT_OKP); kb_kid := None; kb_alg := (Some (FValue, ES256)); kb_key_ops := None; kb_base_IV := None |} (FValue, P_521) [x80; x5a; x31; x4d; x1e; x68; xdb; x16; x1b; x2e; xf0; xbd; x32; xa0; x14; x40; x10; xe2; x41; xca; xe4; x0c; x8a; x2e; x80; xa6; x2b; x9a; x11; xc4; x1d; x85]));
    (raises [ValidationError]) (validate (OKPKey {| kb_kty := (FValue, KT_OKP); kb_kid := None; kb_alg := (Some (FValue, ES384)); kb_key_ops := None; kb_base_IV := None |} (FValue, P_256) [xa0; x42; x85; xc2; x3b; x9b; x30; xd9; x7d; x69; xa9; xad; xc8; xf6; x35; x42; xe5; x0f; x95; x50; x66; xbd; xc7; xa6; x31; xd1; xb0; x40; x21; x16; x99; xa0]));
    (raises [ValidationError]) (validate (OKPKey {| kb_kty := (FValue, KT_OKP); kb_kid := None; kb_alg := (Some (FValue, ES384)); kb_key_ops := None; kb_base_IV := None |} (FValue, P_384) [xd5; x98; xa3; xb4; x8b; xa6; x04; x3e; x4c; xa2; xa6; xa7; x23; xe7; x8f; xf5; xe8; xba; xc2; x28; x1c; x44; x18; xfb; x80; x7d; xad; xb9; xbd; xce; x9d; xed]));
    (raises [ValidationError]) (validate (OKPKey {| kb_kty := (FValue, KT_OKP); kb_kid := None; kb_alg := (Some (FValue, ES384)); kb_key_ops := None; kb_base_IV := None |} (FValue, P_521) [xae; x55; x0e; x4b; x80; x71; x44; x39; x5e; xd2; x19; x32; x88; x36; x68; x85; x22; x28; x25; x6f; x58; xdd; x0b; xbc; xf9; x91; x70; x66; xfc; x78; xd9; xe7]));
    (raises [ValidationError]) (validate (OKPKey {| kb_kty := (FValue, KT_OKP); kb_kid := None; kb_alg := (Some (FValue, ES512)); kb_key_ops := None; kb_base_IV := None |} (FValue, P_256) [xbb; x60; xf6; x25; x83; xd0; x67; x04; xc2; xf9; x27; xce; xd9; x14; xb4; xea; x03; x61; x99; x02; x3d; x9a; xa1; x90; xd2; xd1; x9d; xe7; x9a; x43; xe3; x47]));
    (raises [ValidationError]) (validate (OKPKey {| kb_kty := (FValue, KT_OKP); kb_kid := None; kb_alg := (Some (FValue, ES512)); kb_key_ops := None; kb_base_IV := None |} (FValue, P_384) [x53; x81; x04; xd9; x12; xbc; xd7; xcd; x90; x09; x2e; x2e; x02; xc4; x89; xed; x8b; xbe; xf6; xac; xc6; xe9; x3b; xf7; xb5; x4a; xd4; x4b; x09; x58; x85; xbc]));
    (raises [ValidationError]) (validate (OKPKey {| kb_kty := (FValue, KT_OKP); kb_kid := None; kb_alg := (Some (FValue, ES512)); kb_key_ops := None; kb_base_IV := None |} (FValue, P_521) [x41; x93; xd3; x84; x93; xd7; x8c; xdd; xab; xf8; x6e; xfb; xcd; xd9; x2e; x20; x42; x69; x4c; x75; x0d; x34; x81; x4f; xf5; x32; xcc; x5f; x01; x2d; xda; x1a]));
    (raises [ValidationError]) (validate (OKPKey {| kb_kty := (FValue, KT_OKP); kb_kid := None; kb_alg := (Some (FValue, EDDSA)); kb_key_ops := None; kb_base_IV := None |} (FValue, P_256) [x6f; xd8; xb1; x18; x34; xd6; x3c; x87; x8e; x5b; xf5; x18; x6d; x2c; xc7; x3f; xe5; x96; xfe; xc9; x3b; xf5; x36; x4c; xc5; x67; x55; x83; xd5; x93; xfc; x6d]));
    (raises [ValidationError]) (validate (OKPKey {| kb_kty := (FValue, KT_OKP); kb_kid := None; kb_alg := (Some (FValue, EDDSA)); kb_key_ops := None; kb_base_IV := None |} (FValue, P_384) [xac; xf8; x34; x04; xb1; x88; x1c; xe1; x99; x33; x75; x8c; x8a; x7e; xd2; x4b; x42; x83; x63; xd0; x1d; x4c; xd3; x8a; x8f; xf5; x9c; x88; xfb; x6d; xff; xbc]));
    (raises [ValidationError]) (validate (OKPKey {| kb_kty := (FValue, KT_OKP); kb_kid := None; kb_alg := (Some (FValue, EDDSA)); kb_key_ops := None; kb_base_IV := None |} (FValue, P_521) [xf0; x7b; xad; x5a; x5c; xe6; x4c; x1d; xa6; x45; x6d; xa1; xfc; xf5; xa8; x3c; x41; x47; x83; x73; x2d; x19; x58; x3b; x73; x66; x9d; xd8; xa7; x02; x0a; x9c]));
    (raises [ValidationError]) (validate (OKPKey {| kb_kty := (FValue, KT_OKP); kb_kid := None; kb_alg := (Some (FValue, ES256)); kb_key_ops := None; kb_base_IV := None |} (FValue, P_256) [x70; x2b; x72; x8f; xae; x89; xc2; x0b; x3e; xa8; xb1; x47; x3a; x80; x49; x15; xb1; x27; x2f; x34; x99; xa2; x7f; x89; x19; xb9; x0f; x28; x47; xcc; xbe; x7b; x30; xa8; x8c; x04; xa4; x39; xb4; x40; x8a; xcf; x2e; xf3; xd6; xc9; x9a; x70; x9a; x44; x1b; x38; x59; x7b; x6e; xde; x8c]));
    (raises [ValidationError]) (validate (OKPKey {| kb_kty := (FValue, KT_OKP); kb_kid := None; kb_alg := (Some (FValue, ES256)); kb_key_ops := None; kb_base_IV := None |} (FValue, P_384) [x0a; x80; x8a; x86; xf2; x40; xce; x35; xbf; x23; xb9; x0f; x9d; xe4; x43; x4f; x26; x48; x6e; xf7; xab; xba; x95; x51; x4f; xc3; xe1; xcf; x3c; x4a; x8a; x97; x04; x04; x43; xc2; x33; xeb; x0f; xdd; xd8; x8d; xbd; xd1; xcf; xec; x1b; x32; xf1; x13; x00; x15; x38; x47; xb6; x8a; xb6]));
    (raises [ValidationError]) (validate (OKPKey {| kb_kty := (FValue, KT_OKP); kb_kid := None; kb_alg := (Some (FValue, ES256)); kb_key_ops := None; kb_base_IV := None |} (FValue, P_521) [xf2; x7d; x7a; x36; xb7; x51; x3b; x14; xa0; xd8; xb1; x81; x1c; xde; xd4; xc0; xb7; x96; xae; xe1; x79; x49; x1c; xae; x3a; x58; xf9; xae; x3e; x0b; xf5; x6b; xc4; x59; xcb; x74; x33; x7f; xab; xa8; x7d; xec; xf1; xbd; xfc; x63; xdd; xe1; xcc; x3d; xf9; x88; x40; x4c; x06; xc0; xd4]));
    (raises [ValidationError]) (validate (OKPKey {| kb_kty := (FValue, KT_OKP); kb_kid := None; kb_alg := (Some (FValue, ES384)); kb_key_ops := None; kb_base_IV := None |} (FValue, P_256) [x37; x0d; x26; x5d; xea; xc1; x93; x4f; x4e; x36; x82; x09; xed; xcb; x74; xc8; x02; x7f; xd8; x51; x5b; xaf; x7a; x26; x52; x59; xc0; x0b; x6f; xda; x78; x14; x61; x27; x7e; xcb; xee; x3c; x18; xc6; x2d; x30; xf5; x17; x7a; x06; x0a; x9f; xee; x8e; xd4; x55; x44; xa2; xe5; xd5; x55]));
    (raises [ValidationError]) (validate (OKPKey {| kb_kty := (FValue, KT_OKP); kb_kid := None; kb_alg := (Some (FValue, ES384)); kb_key_ops := None; kb_base_IV := None |} (FValue, P_384) [xca; xc7; x66; xfd; x8e; xb8; x4d; x84; x8f; x59; x2a; xb8; xac; x49; x84; x82; x81; xb2; xc4; x8e; xef; x06; x4c; x42; x81; x73; x64; x24; x65; xdb; x7a; x47; xeb; xc8; x64; x2a; x27; x4e; x1d; x0f; xcf; xc3; xd5; x46; x42; x25; x7b; xc3; x47; x92; x67; xcb; xb6; x5b; x73; x98; x49]));
    (raises [ValidationError]) (validate (OKPKey {| kb_kty := (FValue, KT_OKP); kb_kid := None; kb_alg := (Some (FValue, ES384)); kb_key_ops := None; kb_base_IV := None |} (FValue, P_521) [xb2; xfb; x95; x2d; x99; x6a; xed; x0b; x94; x34; xbe; xe3; x82; x1d; x1a; xa1; x51; x43; x34; x39; xde; x7d; x6a; xcb; x3e; x6c; xc4; x44; x82; x01; x3d; x67; xc1; xf6; x76; x89; x13; x55; x77; xd2; x8c; xd7; xcc; x8b; xfc; x32; x42; x5f; x08; xe8; x16; xfa; x6d; xc9; xac; x7c; x30]));
    (raises [ValidationError]) (validate (OKPKey {| kb_kty := (FValue, KT_OKP); kb_kid := None; kb_alg := (Some (FValue, ES512)); kb_key_ops := None; kb_base_IV := None |} (FValue, P_256) [x27; x15; xd8; xe2; x60; x58; x61; xc5; xb8; x64; x77; xb8; x21; xae; x1a; xea; x16; x5a; x4b; x92; xf0; x16; x21; xca; x2f; xcc; x9a; xc9; x89; xb4; xf0; x19; xf4; x08; xda; x9b; xa2; x4c; x8e; x21; xb8; xd4; xc8; x0c; x3a; x12; x07; x33; xaa; xac; xbc; x11; xbd; x25; xf8; x2a; xe4]));
    (raises [ValidationError]) (validate (OKPKey {| kb_kty := (FValue, KT_OKP); kb_kid := None; kb_alg := (Some (FValue, ES512)); kb_key_ops := None; kb_base_IV := None |} (FValue, P_384) [xab; x01; x52; xa6; xb8; x6d; x4a; x4b; x37; xce; xa2; xd7; xb8; xae; x85; xbc; x13; x20; x7e; x87; xcb; x91; x2a; x26; x57; x88; xd3; x2a; x40; x90; x86; x78; x6b; x32; x8d; xf5; x18; x9a; x68; x26; xa1; xad; x97; x44; x12; xe2; xba; x13; x0e; xa1; xd5; x53; x14; xd9; x5e; x65; x77]));
    (raises [ValidationError]) (validate (OKPKey {| kb_kty := (FValue, KT_OKP); kb_kid := None; kb_alg := (Some (FValue, ES512)); kb_key_ops := None; kb_base_IV := None |} (FValue, P_521) [x3a; x42; x3e; x88; xea; x64; x1c; xb8; xe9; xab; xb5; x70; x04; x07; xfa; x10; x54; x81; x14; x04; x75; x2b; x58; x11; x66; x6b; xe2; x93; x7c; xfb; xbe; xa6; xc8; x25; x63; x5c; x60; x98; xda; xf2; xba; x0b; xf9; x0a; x35; xdd; xaf; xad; x25; xd7; x63; xfd; xf4; xe6; xf1; x54; x89]));
    (raises [ValidationError]) (validate (OKPKey {| kb_kty := (FValue, KT_OKP); kb_kid := None; kb_alg := (Some (FValue, EDDSA)); kb_key_ops := None; kb_base_IV := None |} (FValue, P_256) [x9a; xca; x84; x82; x9e; x07; x17; xea; xea; xb6; x76; xe3; x6b; xf3; xab; x4a; xc4; xdf; x1b; x38; xb6; x04; x82; x1b; x9c; xc1; x07; xa6; xad; x9e; x19; x6a; x29; xa8; x3d; x21; x41; x96; xd1; xae; x77; x0d; x5d; xbb; x9a; x96; xc1; xd7; xec; x25; x65; xd0; x76; x15; x7b; x72; x7c]));
    (raises [ValidationError]) (validate (OKPKey {| kb_kty := (FValue, KT_OKP); kb_kid := None; kb_alg := (Some (FValue, EDDSA)); kb_key_ops := None; kb_base_IV := None |} (FValue, P_384) [xca; xc2; x6b; x4d; x99; xb8; x00; x9d; xe3; xfe; x57; x4a; x0f; xbd; xdf; xaf; xfa; xa2; x39; x95; x8d; xdb; x05; x9f; x2c; xfb; x3a; x70; x87; xdf; xbe; x76; x1b; x34; x53; x42; x95; x18; x22; x6f; x01; x1f; xd8; x0a; x21; x1c; x04; x11; xad; xaa; x09; x04; x6c; xf0; x66; x88; x97]));
    (raises [ValidationError]) (validate (OKPKey {| kb_kty := (FValue, KT_OKP); kb_kid := None; kb_alg := (Some (FValue, EDDSA)); kb_key_ops := None; kb_base_IV := None |} (FValue, P_521) [x80; x77; x5d; x6b; xc8; x1e; x7a; xe7; x12; xa9; xa7; xd0; x3d; x08; x5e; x2f; x5e; x6f; x73; x5a; x9b; x32; x1e; xa0; x4a; x20; xe2; x4c; x76; x16; x92; xb0; x1d; x2d; xe2; x66; x74; x5e; x3d; x1d; x67; x1b; x3b; x2c; x70; x92; x81; xd8; x7f; x10; x80; x63; xa6; xb3; xb6; xe8; xc3]));
    (raises [ValidationError]) (validate (EC2Key {| kb_kty := (FValue, KT_EC2); kb_kid := None; kb_alg := (Some (FValue, EDDSA)); kb_key_ops := None; kb_base_IV := None |} [x02; x37; x21; x3a; xe2; xad; xe7; x07; x6f; xc4; x84; xdb; xcc; x2b; x38; xb3; xc5; xdd; xdd; x35; x12; x80; x33; x01; x3d; x5e; x19; xb5; x1d; x24; x80; xca] [x02; x6a; xee; x89; x2b; x03; x13; x01; x4d; x6b; xe2; x87; x20; x99; xa8; xa6; x5e; xcb; x3c; xa3; x04; x61; x58; x7b; x82; xe0; x76; x6d; x78; xa8; x1f; xb3] (FValue, P_256)));
    (raises [ValidationError]) (validate (EC2Key {| kb_kty := (FValue, KT_EC2); kb_kid := None; kb_alg := (Some (FValue, EDDSA)); kb_key_ops := None; kb_base_IV := None |} [x00; x00; x00; x00; x00; x00; x00; x00; x00; x00; x00; x00; x00; x00; x00; x00; x01; x55; xdf; xe6; x26; x45; x50; x98; xba; x11; xfc; x33; xb6; x1e; x09; x3d; x8c; x6c; x67; x64; xdf; x21; xca; x9b; x20; x73; x2a; xa5; x91; x1a; xcc; x7b] [x00; x00; x00; x00; x00; x00; x00; x00; x00; x00; x00; x00; x00; x00; x00; x00; x02; x37; xdf; xd9; x2b; xea; x3f; xc4; x50; xb1; xc7; xab; xa5; x22; x7b; x6f; x5b; x1f; xb5; x82; x3c; x45; x08; xb1; x40; xfe; x7a; xae; x9c; xae; x8b; x34] (FValue, P_384)));
    (raises [ValidationError]) (validate (EC2Key {| kb_kty := (FValue, KT_EC2); kb_kid := None; kb_alg := (Some (FValue, EDDSA)); kb_key_ops := None; kb_base_IV := None |} [x00; x00; x00; x00; x00; x00; x00; x00; x00; x00; x00; x00; x00; x00; x00; x00; x00; x00; x00; x00; x00; x00; x00; x00; x00; x00; x00; x00; x00; x00; x00; x00; x00; x00; x02; xd3; x7a; xec; x8c; xca; x96; xb3; x27; x6d; xce; xe0; x6d; xa8; xec; x24; x13; xc7; x7d; xbd; x4f; x4b; x24; x5b; x79; x1a; xd4; x04; xdb; x1c; x99; xdf] [x00; x00; x00; x00; x00; x00; x00; x00; x00; x00; x00; x00; x00; x00; x00; x00; x00; x00; x00; x00; x00; x00; x00; x00; x00; x00; x00; x00; x00; x00; x00; x00; x00; x00; x02; x86; xd8; x88; xaf; x3c; x70; x29; x27; xe2; xf4; x7a; xd8; x44; x51; x18; x1b; x80; x1c; xbb; xea; x97; xb6; x07; x73; x1e; x33; xac; xe2; xe7; xb3; x39] (FValue, P_521)));
    (raises [ValidationError]) (validate (OKPKey {| kb_kty := (FValue, KT_OKP); kb_kid := None; kb_alg := (Some (FValue, ES256)); kb_key_ops := None; kb_base_IV := None |} (FValue, ED25519) [x23; x5f; xf5; x11; x17; x62; xb6; xbb; xb5; xbf; xaf; x3d; x5e; xc0; x10; x8a; x6b; x1f; x7e; x9b; xa7; xce; x7d; xb8; x19; x76; x94; x03; x64; x31; x45; x72]));
    (raises [ValidationError]) (validate (OKPKey {| kb_kty := (FValue, KT_OKP); kb_kid := None; kb_alg := (Some (FValue, ES384)); kb_key_ops := None; kb_base_IV := None |} (FValue, ED25519) [xbc; x88; x48; x53; x74; x26; x9f; xdd; xe0; xf3; x5d; xb6; x64; xdd; x25; x8d; x69; x75; x48; x44; x6a; x0a; x53; xf8; xb9; x5e; x19; xb8; x2a; x79; x6c; x2c]));
    (raises [ValidationError]) (validate (OKPKey {| kb_kty := (FValue, KT_OKP); kb_kid := None; kb_alg := (Some (FValue, ES512)); kb_key_ops := None; kb_base_IV := None |} (FValue, ED25519) [xe1; x64; xaf; x54; x09; x6f; xa1; xf5; x12; x1a; xbb; xff; xb2; x45; xf9; x22; xa3; x9f; xa2; x2d; xf6; xad; xd4; x24; x86; x20; xa5; x09; x5c; xa7; x73; xa0]));
    (raises [ValidationError]) (validate (OKPKey {| kb_kty := (FValue, KT_OKP); kb_kid := None; kb_alg := (Some (FValue, ES256)); kb_key_ops := None; kb_base_IV := None |} (FValue, ED448) [x86; x81; x9c; xf9; xd4; x06; x96; x53; x94; x18; x3b; xdc; xdc; x6f; x8e; xb6; xfd; x90; x83; x58; xa5; x49; xb4; x30; xcb; xb6; x62; xca; xe6; x4c; xf6; x7c; x13; x7e; x28; x24; x13; xf1; xf7; xa7; x57; xfe; xcb; x06; xc5; xe6; x54; xbf; x1a; xbc; xb4; xe0; x79; x9b; x2d; xe2; xb6]));
    (raises [ValidationError]) (validate (OKPKey {| kb_kty := (FValue, KT_OKP); kb_kid := None; kb_alg := (Some (FValue, ES384)); kb_key_ops := None; kb_base_IV := None |} (FValue, ED448) [x63; x52; x44; xe2; x17; xba; xac; x58; xfb; xf4; x04; x77; x1e; xe3; x53; x6a; xcc; xee; x3f; xa1; x86; x46; x56; xa8; x43; x5c; x9d; x77; xda; xef; xea; x9f; x56; x9e; x69; x90; x4f; x03; xae; x3c; xd9; xc2; x5b; xe1; xe6; xe2; xba; x69; x1b; x2b; x36; x31; xc6; x46; xe3; xcb; x5d]));
    (raises [ValidationError]) (validate (OKPKey {| kb_kty := (FValue, KT_OKP); kb_kid := None; kb_alg := (Some (FValue, ES512)); kb_key_ops := None; kb_base_IV := None |} (FValue, ED448) [xf3; xe5; x12; x63; xe6; xfa; xc7; x94; xb2; x58; x8b; x5c; x0e; x1f; x21; x75; xe4; xa3; xe2; xab; x34; xc6; x1b; xef; x8e; xd1; xee; xa9; x31; x54; xcd; xda; xf4; x4c; xa3; x4a; xb3; x46; x63; x73; x6e; xe8; x4f; x34; x34; xd9; x1a; xe8; x4d; xbf; xa4; x8f; xcb; x07; xc6; xf9; xe4])) ] = true.
Proof. vm_compute. reflexivity. Qed.

(** ** /repo/tests/test_parsers.py *)


(** tests/test_parsers.py:23-40 *)
Example test__parse_dictionary_field_success :
  [ parse_dictionary_field (VStr (lit "key")) [TInt] [((VStr (lit "key")), (VInt 1%Z)); ((VStr (lit "a")), (VInt 1%Z))] true;
    parse_dictionary_field (VStr (lit "key")) [TStr] [((VStr (lit "key")), (VStr (lit "val")))] true;
    parse_dictionary_field (VStr (lit "key")) [TInt; TStr] [((VStr (lit "key")), (VInt 1%Z))] true;
    parse_dictionary_field (VStr (lit "key")) [TInt; TStr] [((VStr (lit "key")), (VStr (lit "val")))] true;
    parse_dictionary_field (VStr (lit "key")) [TInt] [((VStr (lit "key")), (VInt 1%Z)); ((VStr (lit "a")), (VInt 1%Z))] false;
    parse_dictionary_field (VStr (lit "key")) [TStr] [((VStr (lit "key")), (VStr (lit "val")))] false;
    parse_dictionary_field (VStr (lit "key")) [TInt; TStr] [((VStr (lit "key")), (VInt 1%Z))] false;
    parse_dictionary_field (VStr (lit "key")) [TInt; TStr] [((VStr (lit "key")), (VStr (lit "val")))] false;
    parse_dictionary_field (VStr (lit "key")) [TInt] [] false;
    parse_dictionary_field (VStr (lit "key")) [] [] false;
    parse_dictionary_field (VStr (lit "key")) [] [((VStr (lit "a")), (VInt 1%Z))] false ]
  = [ Ok (VInt 1%Z);
    Ok (VStr (lit "val"));
    Ok (VInt 1%Z);
    Ok (VStr (lit "val"));
    Ok (VInt 1%Z);
    Ok (VStr (lit "val"));
    Ok (VInt 1%Z);
    Ok (VStr (lit "val"));
    Ok VNone;
    Ok VNone;
    Ok VNone ].
Proof. vm_compute. reflexivity. Qed.

(** tests/test_parsers.py:43-60 *)
Example test__parse_dictionary_field_error :
  forallb (raises [ParserError])
  [ parse_dictionary_field (VStr (lit "key")) [TInt] [((VStr (lit "a")), (VInt 1%Z))] true;
    parse_dictionary_field (VStr (lit "key")) [TStr] [((VStr (lit "a")), (VStr (lit "val")))] true;
    parse_dictionary_field (VStr (lit "key")) [TInt; TStr] [((VStr (lit "a")), (VInt 1%Z))] true;
    parse_dictionary_field (VStr (lit "key")) [TInt; TStr] [((VStr (lit "a")), (VStr (lit "val")))] true;
    parse_dictionary_field (VStr (lit "key")) [TStr] [((VStr (lit "key")), (VInt 1%Z)); ((VStr (lit "a")), (VInt 1%Z))] true;
    parse_dictionary_field (VStr (lit "key")) [TInt] [((VStr (lit "key")), (VStr (lit "val")))] true;
    parse_dictionary_field (VStr (lit "key")) [TBytes; TStr] [((VStr (lit "key")), (VInt 1%Z))] true;
    parse_dictionary_field (VStr (lit "key")) [TInt; TBytes] [((VStr (lit "key")), (VStr (lit "val")))] true;
    parse_dictionary_field (VStr (lit "key")) [TStr] [((VStr (lit "key")), (VInt 1%Z)); ((VStr (lit "a")), (VInt 1%Z))] false;
    parse_dictionary_field (VStr (lit "key")) [TInt] [((VStr (lit "key")), (VStr (lit "val")))] false;
    parse_dictionary_field (VStr (lit "key")) [TBytes; TStr] [((VStr (lit "key")), (VInt 1%Z))] false;
    parse_dictionary_field (VStr (lit "key")) [TInt; TBytes] [((VStr (lit "key")), (VStr (lit "val")))] false ] = true.
Proof. vm_compute. reflexivity. Qed.

(** tests/test_parsers.py:63-77 *)
Example test__check_unsupported_keys :
  forallb (fun b : bool => b)
  [ (returns) (check_unsupported_keys ex_world [(lit "a"); (lit "b")] [((VStr (lit "a")), (VInt 1%Z))]);
    (returns) (check_unsupported_keys ex_world [(lit "a"); (lit "b")] [((VStr (lit "b")), (VInt 1%Z))]);
    (returns) (check_unsupported_keys ex_world [(lit "a"); (lit "b")] [((VStr (lit "a")), (VInt 1%Z)); ((VStr (lit "b")), (VInt 2%Z))]);
    (returns) (check_unsupported_keys ex_world [(lit "a"); (lit "b")] []);
    (raises [ParserError]) (check_unsupported_keys ex_world [(lit "a"); (lit "b")] [((VStr (lit "c")), (VInt 1%Z))]);
    (raises [ParserError]) (check_unsupported_keys ex_world [(lit "a"); (lit "b")] [((VStr (lit "a")), (VInt 1%Z)); ((VStr (lit "c")), (VInt 1%Z))]);
    (raises [ParserError]) (check_unsupported_keys ex_world [(lit "a"); (lit "b")] [((VStr (lit "a")), (VInt 1%Z)); ((VStr (lit "b")), (VInt 1%Z)); ((VStr (lit "c")), (VInt 1%Z))]) ] = true.
Proof. vm_compute. reflexivity. Qed.

(** tests/test_parsers.py:80-85 *)
Example test__bytes_from_base64_success :
  [ bytes_from_base64 (lit "abcdef==");
    bytes_from_base64 (lit "IUAjJCVeJiooKS0r") ]
  = [ Ok [x69; xb7; x1d; x79];
    Ok (blit "!@#$%^&*()-+") ].
Proof. vm_compute. reflexivity. Qed.

(** tests/test_parsers.py:88-94 *)
Example test__bytes_from_base64_error :
  forallb (raises [ParserError])
  [ bytes_from_base64 (lit "abcdef=");
    bytes_from_base64 (lit "!@#$%^&*()-+") ] = true.
Proof. vm_compute. reflexivity. Qed.

(** tests/test_parsers.py:101-130 *)
Example test_parse_public_key_credential_success :
  [ parse_public_key_credential ex_world [((VStr (lit "id")), (VStr (lit "a"))); ((VStr (lit "rawId")), (VStr (lit "Yg=="))); ((VStr (lit "type")), (VStr (lit "c"))); ((VStr (lit "response")), (VDict [((VStr (lit "clientDataJSON")), (VStr (lit "ZQ=="))); ((VStr (lit "attestationObject")), (VStr (lit "Zg==")))]))];
    parse_public_key_credential ex_world [((VStr (lit "id")), (VStr (lit "a"))); ((VStr (lit "rawId")), (VStr (lit "Yg=="))); ((VStr (lit "type")), (VStr (lit "c"))); ((VStr (lit "response")), (VDict [((VStr (lit "clientDataJSON")), (VStr (lit "ZQ=="))); ((VStr (lit "authenticatorData")), (VStr (lit "Zg=="))); ((VStr (lit "signature")), (VStr (lit "Zw=="))); ((VStr (lit "userHandle")), (VStr (lit "aA==")))]))] ]
  = [ Ok {| cr_id := (lit "a"); cr_type := (lit "c"); cr_raw_id := (blit "b"); cr_response := AttestationResponse (blit "e") (blit "f") |};
    Ok {| cr_id := (lit "a"); cr_type := (lit "c"); cr_raw_id := (blit "b"); cr_response := AssertionResponse (blit "e") (blit "f") (blit "g") (Some (blit "h")) |} ].
Proof. vm_compute. reflexivity. Qed.

(** tests/test_parsers.py:133-216 *)
Example test_parse_public_key_credential_error :
  forallb (raises [ParserError])
  [ parse_public_key_credential ex_world [((VStr (lit "id")), (VStr (lit "a"))); ((VStr (lit "rawId")), (VStr (lit "Yg=="))); ((VStr (lit "type")), (VStr (lit "c"))); ((VStr (lit "x")), (VInt 1%Z)); ((VStr (lit "response")), (VDict [((VStr (lit "clientDataJSON")), (VStr (lit "ZQ=="))); ((VStr (lit "attestationObject")), (VStr (lit "Zg==")))]))];
    parse_public_key_credential ex_world [((VStr (lit "id")), (VStr (lit "a"))); ((VStr (lit "rawId")), (VStr (lit "Yg=="))); ((VStr (lit "type")), (VStr (lit "c"))); ((VStr (lit "response")), (VDict [((VStr (lit "x")), (VInt 1%Z)); ((VStr (lit "clientDataJSON")), (VStr (lit "ZQ=="))); ((VStr (lit "attestationObject")), (VStr (lit "Zg==")))]))];
    parse_public_key_credential ex_world [((VStr (lit "id")), (VInt 1%Z)); ((VStr (lit "rawId")), (VStr (lit "Yg=="))); ((VStr (lit "type")), (VStr (lit "c"))); ((VStr (lit "x")), (VInt 1%Z)); ((VStr (lit "response")), (VDict [((VStr (lit "clientDataJSON")), (VStr (lit "ZQ=="))); ((VStr (lit "attestationObject")), (VStr (lit "Zg==")))]))];
    parse_public_key_credential ex_world [((VStr (lit "id")), (VStr (lit "a"))); ((VStr (lit "rawId")), (VBytes (blit "a"))); ((VStr (lit "type")), (VStr (lit "c"))); ((VStr (lit "response")), (VDict [((VStr (lit "clientDataJSON")), (VStr (lit "ZQ=="))); ((VStr (lit "attestationObject")), (VStr (lit "Zg==")))]))];
    parse_public_key_credential ex_world [((VStr (lit "id")), (VStr (lit "a"))); ((VStr (lit "rawId")), (VStr (lit "Yg=="))); ((VStr (lit "type")), (VBytes (blit "c"))); ((VStr (lit "response")), (VDict [((VStr (lit "clientDataJSON")), (VStr (lit "ZQ=="))); ((VStr (lit "attestationObject")), (VStr (lit "Zg==")))]))];
    parse_public_key_credential ex_world [((VStr (lit "id")), (VStr (lit "a"))); ((VStr (lit "rawId")), (VStr (lit "Yg=="))); ((VStr (lit "type")), (VStr (lit "c"))); ((VStr (lit "response")), (VDict [((VStr (lit "clientDataJSON")), (VFloat 4607182418800017408%N)); ((VStr (lit "attestationObject")), (VStr (lit "Zg==")))]))];
    parse_public_key_credential ex_world [((VStr (lit "id")), (VStr (lit "a"))); ((VStr (lit "rawId")), (VStr (lit "Yg=="))); ((VStr (lit "type")), (VStr (lit "c"))); ((VStr (lit "response")), (VDict [((VStr (lit "clientDataJSON")), (VStr (lit "ZQ=="))); ((VStr (lit "attestationObject")), (VList []))]))];
    parse_public_key_credential ex_world [((VStr (lit "id")), (VStr (lit "a"))); ((VStr (lit "rawId")), (VStr (lit "Yg=="))); ((VStr (lit "type")), (VStr (lit "c"))); ((VStr (lit "y")), (VStr (lit "a"))); ((VStr (lit "response")), (VDict [((VStr (lit "clientDataJSON")), (VStr (lit "ZQ=="))); ((VStr (lit "authenticatorData")), (VStr (lit "Zg=="))); ((VStr (lit "signature")), (VStr (lit "Zw=="))); ((VStr (lit "userHandle")), (VStr (lit "aA==")))]))];
    parse_public_key_credential ex_world [((VStr (lit "id")), (VStr (lit "a"))); ((VStr (lit "rawId")), (VStr (lit "Yg=="))); ((VStr (lit "type")), (VStr (lit "c"))); ((VStr (lit "response")), (VDict [((VStr (lit "y")), (VStr (lit "a"))); ((VStr (lit "clientDataJSON")), (VStr (lit "ZQ=="))); ((VStr (lit "authenticatorData")), (VStr (lit "Zg=="))); ((VStr (lit "signature")), (VStr (lit "Zw=="))); ((VStr (lit "userHandle")), (VStr (lit "aA==")))]))];
    parse_public_key_credential ex_world [((VStr (lit "id")), (VStr (lit "a"))); ((VStr (lit "rawId")), (VStr (lit "Yg=="))); ((VStr (lit "type")), (VStr (lit "c"))); ((VStr (lit "response")), (VDict [((VStr (lit "clientDataJSON")), (VFloat 4607182418800017408%N)); ((VStr (lit "authenticatorData")), (VStr (lit "Zg=="))); ((VStr (lit "signature")), (VStr (lit "Zw=="))); ((VStr (lit "userHandle")), (VStr (lit "aA==")))]))];
    parse_public_key_credential ex_world [((VStr (lit "id")), (VStr (lit "a"))); ((VStr (lit "rawId")), (VStr (lit "Yg=="))); ((VStr (lit "type")), (VStr (lit "c"))); ((VStr (lit "response")), (VDict [((VStr (lit "clientDataJSON")), (VStr (lit "ZQ=="))); ((VStr (lit "authenticatorData")), (VInt 2%Z)); ((VStr (lit "signature")), (VStr (lit "Zw=="))); ((VStr (lit "userHandle")), (VStr (lit "aA==")))]))];
    parse_public_key_credential ex_world [((VStr (lit "id")), (VStr (lit "a"))); ((VStr (lit "rawId")), (VStr (lit "Yg=="))); ((VStr (lit "type")), (VStr (lit "c"))); ((VStr (lit "response")), (VDict [((VStr (lit "clientDataJSON")), (VStr (lit "ZQ=="))); ((VStr (lit "authenticatorData")), (VStr (lit "Zg=="))); ((VStr (lit "signature")), (VBytes (blit "3"))); ((VStr (lit "userHandle")), (VStr (lit "aA==")))]))];
    parse_public_key_credential ex_world [((VStr (lit "id")), (VStr (lit "a"))); ((VStr (lit "rawId")), (VStr (lit "Yg=="))); ((VStr (lit "type")), (VStr (lit "c"))); ((VStr (lit "response")), (VDict [((VStr (lit "clientDataJSON")), (VStr (lit "ZQ=="))); ((VStr (lit "authenticatorData")), (VStr (lit "Zg=="))); ((VStr (lit "signature")), (VStr (lit "Zw=="))); ((VStr (lit "userHandle")), (VInt 4%Z))]))] ] = true.
Proof. vm_compute. reflexivity. Qed.

(** tests/test_parsers.py:219-223 *)
Example test__parse_credential_public_key_kty_success :
  [ parse_kty ex_world [((VInt 1%Z), (VStr (lit "OKP")))];
    parse_kty ex_world [((VInt 1%Z), (VStr (lit "EC2")))];
    parse_kty ex_world [((VInt 1%Z), (VStr (lit "Symmetric")))];
    parse_kty ex_world [((VInt 1%Z), (VInt 1%Z))];
    parse_kty ex_world [((VInt 1%Z), (VInt 2%Z))];
    parse_kty ex_world [((VInt 1%Z), (VInt 4%Z))] ]
  = [ Ok (FName, KT_OKP);
    Ok (FName, KT_EC2);
    Ok (FName, KT_SYMMETRIC);
    Ok (FValue, KT_OKP);
    Ok (FValue, KT_EC2);
    Ok (FValue, KT_SYMMETRIC) ].
Proof. vm_compute. reflexivity. Qed.

(** tests/test_parsers.py:226-239 *)
Example test__parse_credential_public_key_kty_error :
  forallb (raises [ParserError])
  [ parse_kty ex_world [((VInt 1%Z), (VInt (-1)%Z))];
    parse_kty ex_world [((VInt 1%Z), (VInt (-2)%Z))];
    parse_kty ex_world [((VInt 1%Z), (VStr (lit "_invalid")))];
    parse_kty ex_world [((VInt 1%Z), (VStr (lit "1")))];
    parse_kty ex_world [];
    parse_kty ex_world [((VInt 2%Z), (VInt 1%Z))];
    parse_kty ex_world [((VInt 2%Z), (VStr (lit "")))] ] = true.
Proof. vm_compute. reflexivity. Qed.

(** tests/test_parsers.py:242-247 *)
Example test__parse_credential_public_key_alg_success :
  [ parse_alg ex_world [((VInt 3%Z), (VStr (lit "ES256")))];
    parse_alg ex_world [((VInt 3%Z), (VStr (lit "ES384")))];
    parse_alg ex_world [((VInt 3%Z), (VStr (lit "ES512")))];
    parse_alg ex_world [((VInt 3%Z), (VStr (lit "EdDSA")))];
    parse_alg ex_world [((VInt 3%Z), (VInt (-7)%Z))];
    parse_alg ex_world [((VInt 3%Z), (VInt (-35)%Z))];
    parse_alg ex_world [((VInt 3%Z), (VInt (-36)%Z))];
    parse_alg ex_world [((VInt 3%Z), (VInt (-8)%Z))] ]
  = [ Ok (FName, ES256);
    Ok (FName, ES384);
    Ok (FName, ES512);
    Ok (FName, EDDSA);
    Ok (FValue, ES256);
    Ok (FValue, ES384);
    Ok (FValue, ES512);
    Ok (FValue, EDDSA) ].
Proof. vm_compute. reflexivity. Qed.

(** tests/test_parsers.py:250-263 *)
Example test__parse_credential_public_key_alg_error :
  forallb (raises [ParserError])
  [ parse_alg ex_world [((VInt 3%Z), (VInt (-1)%Z))];
    parse_alg ex_world [((VInt 3%Z), (VInt (-2)%Z))];
    parse_alg ex_world [((VInt 3%Z), (VStr (lit "_invalid")))];
    parse_alg ex_world [((VInt 3%Z), (VStr (lit "1")))];
    parse_alg ex_world [];
    parse_alg ex_world [((VInt 2%Z), (VInt 1%Z))];
    parse_alg ex_world [((VInt 2%Z), (VStr (lit "")))] ] = true.
Proof. vm_compute. reflexivity. Qed.

(** tests/test_parsers.py:266-277 *)
Example test__parse_credential_public_key_key_ops_success :
  [ parse_key_ops ex_world [((VInt 4%Z), (VList [(VStr (lit "sign")); (VStr (lit "verify")); (VStr (lit "encrypt")); (VStr (lit "decrypt")); (VStr (lit "wrap key")); (VStr (lit "unwrap key")); (VStr (lit "derive key")); (VStr (lit "derive bits")); (VStr (lit "MAC create")); (VStr (lit "MAC verify"))]))];
    parse_key_ops ex_world [((VInt 4%Z), (VList [(VInt 1%Z); (VInt 2%Z); (VInt 3%Z); (VInt 4%Z); (VInt 5%Z); (VInt 6%Z); (VInt 7%Z); (VInt 8%Z); (VInt 9%Z); (VInt 10%Z)]))];
    parse_key_ops ex_world [((VInt 4%Z), (VList [(VStr (lit "sign")); (VStr (lit "verify")); (VStr (lit "encrypt")); (VStr (lit "decrypt")); (VStr (lit "wrap key")); (VStr (lit "unwrap key")); (VStr (lit "derive key")); (VStr (lit "derive bits")); (VStr (lit "MAC create")); (VStr (lit "MAC verify")); (VInt 1%Z); (VInt 2%Z); (VInt 3%Z); (VInt 4%Z); (VInt 5%Z); (VInt 6%Z); (VInt 7%Z); (VInt 8%Z); (VInt 9%Z); (VInt 10%Z)]))];
    parse_key_ops ex_world [] ]
  = [ Ok (Some [(FName, SIGN); (FName, VERIFY); (FName, ENCRYPT); (FName, DECRYPT); (FName, WRAP_KEY); (FName, UNWRAP_KEY); (FName, DERIVE_KEY); (FName, DERIVE_BITS); (FName, MAC_CREATE); (FName, MAC_VERIFY)]);
    Ok (Some [(FValue, SIGN); (FValue, VERIFY); (FValue, ENCRYPT); (FValue, DECRYPT); (FValue, WRAP_KEY); (FValue, UNWRAP_KEY); (FValue, DERIVE_KEY); (FValue, DERIVE_BITS); (FValue, MAC_CREATE); (FValue, MAC_VERIFY)]);
    Ok (Some [(FName, SIGN); (FName, VERIFY); (FName, ENCRYPT); (FName, DECRYPT); (FName, WRAP_KEY); (FName, UNWRAP_KEY); (FName, DERIVE_KEY); (FName, DERIVE_BITS); (FName, MAC_CREATE); (FName, MAC_VERIFY); (FValue, SIGN); (FValue, VERIFY); (FValue, ENCRYPT); (FValue, DECRYPT); (FValue, WRAP_KEY); (FValue, UNWRAP_KEY); (FValue, DERIVE_KEY); (FValue, DERIVE_BITS); (FValue, MAC_CREATE); (FValue, MAC_VERIFY)]);
    Ok None ].
Proof. vm_compute. reflexivity. Qed.

(** tests/test_parsers.py:280-295 *)
Example test__parse_credential_public_key_key_ops_error :
  forallb (raises [ParserError])
  [ parse_key_ops ex_world [((VInt 4%Z), (VInt (-1)%Z))];
    parse_key_ops ex_world [((VInt 4%Z), (VInt (-2)%Z))];
    parse_key_ops ex_world [((VInt 4%Z), (VStr (lit "_invalid")))];
    parse_key_ops ex_world [((VInt 4%Z), (VStr (lit "1")))];
    parse_key_ops ex_world [((VInt 4%Z), (VList [(VStr (lit "x"))]))];
    parse_key_ops ex_world [((VInt 4%Z), (VList [(VInt (-1)%Z)]))];
    parse_key_ops ex_world [((VInt 4%Z), (VList [(VStr (lit "decrypt")); (VStr (lit "y"))]))];
    parse_key_ops ex_world [((VInt 4%Z), (VList []))] ] = true.
Proof. vm_compute. reflexivity. Qed.

(** tests/test_parsers.py:298-333 *)
Example test__parse_credential_public_key_kwargs_success :
  [ parse_key_base ex_world [((VInt 1%Z), (VStr (lit "EC2"))); ((VInt 2%Z), (VBytes (blit "key-id"))); ((VInt 3%Z), (VStr (lit "ES256"))); ((VInt 4%Z), (VList [(VStr (lit "verify")); (VStr (lit "sign"))])); ((VInt 5%Z), (VBytes (blit "base-IV")))];
    parse_key_base ex_world [((VInt 1%Z), (VInt 2%Z)); ((VInt 2%Z), (VBytes (blit "key-id"))); ((VInt 3%Z), (VInt (-7)%Z)); ((VInt 4%Z), (VList [(VInt 2%Z); (VInt 1%Z)])); ((VInt 5%Z), (VBytes (blit "base-IV")))] ]
  = [ Ok {| kb_kty := (FName, KT_EC2); kb_kid := (Some (blit "key-id")); kb_alg := (Some (FName, ES256)); kb_key_ops := (Some [(FName, VERIFY); (FName, SIGN)]); kb_base_IV := (Some (blit "base-IV")) |};
    Ok {| kb_kty := (FValue, KT_EC2); kb_kid := (Some (blit "key-id")); kb_alg := (Some (FValue, ES256)); kb_key_ops := (Some [(FValue, VERIFY); (FValue, SIGN)]); kb_base_IV := (Some (blit "base-IV")) |} ].
Proof. vm_compute. reflexivity. Qed.

(** tests/test_parsers.py:336-386 *)
Example test__parse_credential_public_key_kwargs_error :
  forallb (raises [ParserError])
  [ parse_key_base ex_world [((VInt 1%Z), (VFloat 4607182418800017408%N)); ((VInt 2%Z), (VBytes (blit "key-id"))); ((VInt 3%Z), (VStr (lit "ES256"))); ((VInt 4%Z), (VList [(VStr (lit "verify")); (VStr (lit "sign"))])); ((VInt 5%Z), (VBytes (blit "base-IV")))];
    parse_key_base ex_world [((VInt 1%Z), (VStr (lit "EC2"))); ((VInt 2%Z), (VStr (lit "string"))); ((VInt 3%Z), (VStr (lit "ES256"))); ((VInt 4%Z), (VList [(VStr (lit "verify")); (VStr (lit "sign"))])); ((VInt 5%Z), (VBytes (blit "base-IV")))];
    parse_key_base ex_world [((VInt 1%Z), (VStr (lit "EC2"))); ((VInt 2%Z), (VBytes (blit "key-id"))); ((VInt 3%Z), (VInt (-1)%Z)); ((VInt 4%Z), (VList [(VStr (lit "verify")); (VStr (lit "sign"))])); ((VInt 5%Z), (VBytes (blit "base-IV")))];
    parse_key_base ex_world [((VInt 1%Z), (VStr (lit "EC2"))); ((VInt 2%Z), (VBytes (blit "key-id"))); ((VInt 3%Z), (VStr (lit "ES256"))); ((VInt 4%Z), (VList [(VBytes (blit "x")); (VStr (lit "verify")); (VStr (lit "sign"))])); ((VInt 5%Z), (VBytes (blit "base-IV")))];
    parse_key_base ex_world [((VInt 1%Z), (VStr (lit "EC2"))); ((VInt 2%Z), (VBytes (blit "key-id"))); ((VInt 3%Z), (VStr (lit "ES256"))); ((VInt 4%Z), (VList [(VStr (lit "verify")); (VStr (lit "sign"))])); ((VInt 5%Z), (VStr (lit "string")))] ] = true.
Proof. vm_compute. reflexivity. Qed.

(** tests/test_parsers.py:389-393 *)
Example test__parse_ec2_public_key_crv_success :
  [ parse_crv ex_world ec2curve_enum [((VInt (-1)%Z), (VStr (lit "P-256")))];
    parse_crv ex_world ec2curve_enum [((VInt (-1)%Z), (VStr (lit "P-384")))];
    parse_crv ex_world ec2curve_enum [((VInt (-1)%Z), (VStr (lit "P-521")))];
    parse_crv ex_world ec2curve_enum [((VInt (-1)%Z), (VInt 1%Z))];
    parse_crv ex_world ec2curve_enum [((VInt (-1)%Z), (VInt 2%Z))];
    parse_crv ex_world ec2curve_enum [((VInt (-1)%Z), (VInt 3%Z))] ]
  = [ Ok (FName, P_256);
    Ok (FName, P_384);
    Ok (FName, P_521);
    Ok (FValue, P_256);
    Ok (FValue, P_384);
    Ok (FValue, P_521) ].
Proof. vm_compute. reflexivity. Qed.

(** tests/test_parsers.py:396-416 *)
Example test__parse_ec2_public_key_crv_error :
  forallb (raises [ParserError])
  [ parse_crv ex_world ec2curve_enum [((VInt (-1)%Z), (VBytes []))];
    parse_crv ex_world ec2curve_enum [((VInt (-1)%Z), (VFloat 4607182418800017408%N))];
    parse_crv ex_world ec2curve_enum [((VInt (-1)%Z), (VStr (lit "x")))];
    parse_crv ex_world ec2curve_enum [((VInt (-1)%Z), (VInt (-1)%Z))];
    parse_crv ex_world ec2curve_enum [];
    parse_crv ex_world ec2curve_enum [((VInt 2%Z), (VInt 1%Z))] ] = true.
Proof. vm_compute. reflexivity. Qed.

(** tests/test_parsers.py:419-423 *)
Example test__parse_okp_public_key_crv_success :
  [ parse_crv ex_world okpcurve_enum [((VInt (-1)%Z), (VStr (lit "Ed25519")))];
    parse_crv ex_world okpcurve_enum [((VInt (-1)%Z), (VStr (lit "Ed448")))];
    parse_crv ex_world okpcurve_enum [((VInt (-1)%Z), (VInt 6%Z))];
    parse_crv ex_world okpcurve_enum [((VInt (-1)%Z), (VInt 7%Z))] ]
  = [ Ok (FName, ED25519);
    Ok (FName, ED448);
    Ok (FValue, ED25519);
    Ok (FValue, ED448) ].
Proof. vm_compute. reflexivity. Qed.

(** tests/test_parsers.py:426-446 *)
Example test__parse_okp_public_key_crv_error :
  forallb (raises [ParserError])
  [ parse_crv ex_world okpcurve_enum [((VInt (-1)%Z), (VBytes []))];
    parse_crv ex_world okpcurve_enum [((VInt (-1)%Z), (VFloat 4607182418800017408%N))];
    parse_crv ex_world okpcurve_enum [((VInt (-1)%Z), (VStr (lit "x")))];
    parse_crv ex_world okpcurve_enum [((VInt (-1)%Z), (VInt (-1)%Z))];
    parse_crv ex_world okpcurve_enum [];
    parse_crv ex_world okpcurve_enum [((VInt 2%Z), (VInt 1%Z))] ] = true.
Proof. vm_compute. reflexivity. Qed.

(** tests/test_parsers.py:449-533 *)
Example test_parse_okp_public_key_success :
  [ parse_okp_public_key ex_world [((VInt (-2)%Z), (VBytes (repeat x78 32))); ((VInt (-1)%Z), (VInt 6%Z)); ((VInt 1%Z), (VInt 1%Z)); ((VInt 2%Z), (VBytes (blit "kid"))); ((VInt 3%Z), (VInt (-8)%Z)); ((VInt 4%Z), (VList [(VInt 1%Z); (VInt 2%Z)])); ((VInt 5%Z), (VBytes (blit "base-IV")))];
    parse_okp_public_key ex_world [((VInt (-2)%Z), (VBytes (repeat x78 57))); ((VInt (-1)%Z), (VInt 7%Z)); ((VInt 1%Z), (VInt 1%Z)); ((VInt 2%Z), (VBytes (blit "kid"))); ((VInt 3%Z), (VInt (-8)%Z)); ((VInt 4%Z), (VList [(VInt 1%Z); (VInt 2%Z)])); ((VInt 5%Z), (VBytes (blit "base-IV")))];
    parse_okp_public_key ex_world [((VInt (-2)%Z), (VBytes (repeat x78 57))); ((VInt (-1)%Z), (VInt 7%Z)); ((VInt 1%Z), (VInt 1%Z)); ((VInt 2%Z), (VBytes (blit "kid"))); ((VInt 3%Z), (VInt (-8)%Z)); ((VInt 4%Z), (VList [(VInt 1%Z); (VInt 2%Z)])); ((VInt 5%Z), (VBytes (blit "base-IV")))] ]
  = [ Ok (OKPKey {| kb_kty := (FValue, KT_OKP); kb_kid := (Some (blit "kid")); kb_alg := (Some (FValue, EDDSA)); kb_key_ops := (Some [(FValue, SIGN); (FValue, VERIFY)]); kb_base_IV := (Some (blit "base-IV")) |} (FValue, ED25519) (repeat x78 32));
    Ok (OKPKey {| kb_kty := (FValue, KT_OKP); kb_kid := (Some (blit "kid")); kb_alg := (Some (FValue, EDDSA)); kb_key_ops := (Some [(FValue, SIGN); (FValue, VERIFY)]); kb_base_IV := (Some (blit "base-IV")) |} (FValue, ED448) (repeat x78 57));
    Ok (OKPKey {| kb_kty := (FValue, KT_OKP); kb_kid := (Some (blit "kid")); kb_alg := (Some (FValue, EDDSA)); kb_key_ops := (Some [(FValue, SIGN); (FValue, VERIFY)]); kb_base_IV := (Some (blit "base-IV")) |} (FValue, ED448) (repeat x78 57)) ].
Proof. vm_compute. reflexivity. Qed.

(** tests/test_parsers.py:536-651 *)
Example test_parse_okp_public_key_error :
  forallb (raises [ParserError])
  [ parse_okp_public_key ex_world [((VInt (-2)%Z), (VStr (lit "xxxxxxxxxxxxxxxxxxxxxxxxxxxxxxxxxxxxxxxxxxxxxxxxxxxxxxxxx"))); ((VInt (-1)%Z), (VInt 7%Z)); ((VInt 1%Z), (VInt 1%Z)); ((VInt 2%Z), (VBytes (blit "kid"))); ((VInt 3%Z), (VInt (-8)%Z)); ((VInt 4%Z), (VList [(VInt 1%Z); (VInt 2%Z)])); ((VInt 5%Z), (VBytes (blit "base-IV")))];
    parse_okp_public_key ex_world [((VInt (-2)%Z), (VBytes (repeat x78 57))); ((VInt (-1)%Z), (VInt 7%Z)); ((VInt 1%Z), (VInt 1%Z)); ((VInt 2%Z), (VStr (lit "kid"))); ((VInt 3%Z), (VInt (-8)%Z)); ((VInt 4%Z), (VList [(VInt 1%Z); (VInt 2%Z)])); ((VInt 5%Z), (VBytes (blit "base-IV")))];
    parse_okp_public_key ex_world [((VInt (-2)%Z), (VBytes (repeat x78 57))); ((VInt (-1)%Z), (VInt 7%Z)); ((VInt 1%Z), (VInt 1%Z)); ((VInt 2%Z), (VBytes (blit "kid"))); ((VInt 3%Z), (VInt (-8)%Z)); ((VInt 4%Z), (VList [(VInt 1%Z); (VInt 2%Z)])); ((VInt 5%Z), (VStr (lit "base-IV")))];
    parse_okp_public_key ex_world [((VInt (-2)%Z), (VBytes (repeat x78 57))); ((VInt (-1)%Z), (VStr (lit "invalid"))); ((VInt 1%Z), (VInt 1%Z)); ((VInt 2%Z), (VBytes (blit "kid"))); ((VInt 3%Z), (VInt (-8)%Z)); ((VInt 4%Z), (VList [(VInt 1%Z); (VInt 2%Z)])); ((VInt 5%Z), (VBytes (blit "base-IV")))];
    parse_okp_public_key ex_world [((VInt (-2)%Z), (VBytes (repeat x78 57))); ((VInt (-1)%Z), (VInt 7%Z)); ((VInt 1%Z), (VInt (-1)%Z)); ((VInt 2%Z), (VBytes (blit "kid"))); ((VInt 3%Z), (VInt (-8)%Z)); ((VInt 4%Z), (VList [(VInt 1%Z); (VInt 2%Z)])); ((VInt 5%Z), (VBytes (blit "base-IV")))];
    parse_okp_public_key ex_world [((VInt (-2)%Z), (VBytes (repeat x78 57))); ((VInt (-1)%Z), (VInt 7%Z)); ((VInt 1%Z), (VInt 1%Z)); ((VInt 2%Z), (VBytes (blit "kid"))); ((VInt 3%Z), (VStr (lit "invalid"))); ((VInt 4%Z), (VList [(VInt 1%Z); (VInt 2%Z)])); ((VInt 5%Z), (VBytes (blit "base-IV")))];
    parse_okp_public_key ex_world [((VInt (-2)%Z), (VBytes (repeat x78 57))); ((VInt (-1)%Z), (VInt 7%Z)); ((VInt 1%Z), (VInt 1%Z)); ((VInt 2%Z), (VBytes (blit "kid"))); ((VInt 3%Z), (VInt (-8)%Z)); ((VInt 4%Z), (VList [(VInt (-3)%Z)])); ((VInt 5%Z), (VBytes (blit "base-IV")))];
    parse_okp_public_key ex_world [((VInt (-3)%Z), (VBytes (repeat x79 32))); ((VInt (-2)%Z), (VBytes (repeat x78 32))); ((VInt (-1)%Z), (VInt 1%Z)); ((VInt 1%Z), (VInt 2%Z)); ((VInt 2%Z), (VBytes (blit "kid"))); ((VInt 3%Z), (VInt (-7)%Z)); ((VInt 4%Z), (VList [(VInt 1%Z); (VInt 2%Z)])); ((VInt 5%Z), (VBytes (blit "base-IV")))];
    parse_okp_public_key ex_world [((VInt (-3)%Z), (VBytes (repeat x79 48))); ((VInt (-2)%Z), (VBytes (repeat x78 48))); ((VInt (-1)%Z), (VInt 2%Z)); ((VInt 1%Z), (VInt 2%Z)); ((VInt 2%Z), (VBytes (blit "kid"))); ((VInt 3%Z), (VInt (-35)%Z)); ((VInt 4%Z), (VList [(VInt 1%Z); (VInt 2%Z)])); ((VInt 5%Z), (VBytes (blit "base-IV")))];
    parse_okp_public_key ex_world [((VInt (-3)%Z), (VBytes (repeat x79 66))); ((VInt (-2)%Z), (VBytes (repeat x78 66))); ((VInt (-1)%Z), (VInt 3%Z)); ((VInt 1%Z), (VInt 2%Z)); ((VInt 2%Z), (VBytes (blit "kid"))); ((VInt 3%Z), (VInt (-36)%Z)); ((VInt 4%Z), (VList [(VInt 1%Z); (VInt 2%Z)])); ((VInt 5%Z), (VBytes (blit "base-IV")))] ] = true.
Proof. vm_compute. reflexivity. Qed.

(** tests/test_parsers.py:654-747 *)
Example test_parse_ec2_public_key_success :
  [ parse_ec2_public_key ex_world [((VInt (-3)%Z), (VBytes (repeat x79 32))); ((VInt (-2)%Z), (VBytes (repeat x78 32))); ((VInt (-1)%Z), (VInt 1%Z)); ((VInt 1%Z), (VInt 2%Z)); ((VInt 2%Z), (VBytes (blit "kid"))); ((VInt 3%Z), (VInt (-7)%Z)); ((VInt 4%Z), (VList [(VInt 1%Z); (VInt 2%Z)])); ((VInt 5%Z), (VBytes (blit "base-IV")))];
    parse_ec2_public_key ex_world [((VInt (-3)%Z), (VBytes (repeat x79 48))); ((VInt (-2)%Z), (VBytes (repeat x78 48))); ((VInt (-1)%Z), (VInt 2%Z)); ((VInt 1%Z), (VInt 2%Z)); ((VInt 2%Z), (VBytes (blit "kid"))); ((VInt 3%Z), (VInt (-35)%Z)); ((VInt 4%Z), (VList [(VInt 1%Z); (VInt 2%Z)])); ((VInt 5%Z), (VBytes (blit "base-IV")))];
    parse_ec2_public_key ex_world [((VInt (-3)%Z), (VBytes (repeat x79 66))); ((VInt (-2)%Z), (VBytes (repeat x78 66))); ((VInt (-1)%Z), (VInt 3%Z)); ((VInt 1%Z), (VInt 2%Z)); ((VInt 2%Z), (VBytes (blit "kid"))); ((VInt 3%Z), (VInt (-36)%Z)); ((VInt 4%Z), (VList [(VInt 1%Z); (VInt 2%Z)])); ((VInt 5%Z), (VBytes (blit "base-IV")))] ]
  = [ Ok (EC2Key {| kb_kty := (FValue, KT_EC2); kb_kid := (Some (blit "kid")); kb_alg := (Some (FValue, ES256)); kb_key_ops := (Some [(FValue, SIGN); (FValue, VERIFY)]); kb_base_IV := (Some (blit "base-IV")) |} (repeat x78 32) (repeat x79 32) (FValue, P_256));
    Ok (EC2Key {| kb_kty := (FValue, KT_EC2); kb_kid := (Some (blit "kid")); kb_alg := (Some (FValue, ES384)); kb_key_ops := (Some [(FValue, SIGN); (FValue, VERIFY)]); kb_base_IV := (Some (blit "base-IV")) |} (repeat x78 48) (repeat x79 48) (FValue, P_384));
    Ok (EC2Key {| kb_kty := (FValue, KT_EC2); kb_kid := (Some (blit "kid")); kb_alg := (Some (FValue, ES512)); kb_key_ops := (Some [(FValue, SIGN); (FValue, VERIFY)]); kb_base_IV := (Some (blit "base-IV")) |} (repeat x78 66) (repeat x79 66) (FValue, P_521)) ].
Proof. vm_compute. reflexivity. Qed.

(** tests/test_parsers.py:750-932 *)
Example test_parse_ec2_public_key_error :
  forallb (raises [ParserError])
  [ parse_ec2_public_key ex_world [((VInt (-2)%Z), (VStr (lit "xxxxxxxxxxxxxxxxxxxxxxxxxxxxxxxxxxxxxxxxxxxxxxxxxxxxxxxxx"))); ((VInt (-1)%Z), (VInt 7%Z)); ((VInt 1%Z), (VInt 1%Z)); ((VInt 2%Z), (VBytes (blit "kid"))); ((VInt 3%Z), (VInt (-8)%Z)); ((VInt 4%Z), (VList [(VInt 1%Z); (VInt 2%Z)])); ((VInt 5%Z), (VBytes (blit "base-IV")))];
    parse_ec2_public_key ex_world [((VInt (-2)%Z), (VBytes (repeat x78 57))); ((VInt (-1)%Z), (VInt 7%Z)); ((VInt 1%Z), (VInt 1%Z)); ((VInt 2%Z), (VStr (lit "kid"))); ((VInt 3%Z), (VInt (-8)%Z)); ((VInt 4%Z), (VList [(VInt 1%Z); (VInt 2%Z)])); ((VInt 5%Z), (VBytes (blit "base-IV")))];
    parse_ec2_public_key ex_world [((VInt (-2)%Z), (VBytes (repeat x78 57))); ((VInt (-1)%Z), (VInt 7%Z)); ((VInt 1%Z), (VInt 1%Z)); ((VInt 2%Z), (VBytes (blit "kid"))); ((VInt 3%Z), (VInt (-8)%Z)); ((VInt 4%Z), (VList [(VInt 1%Z); (VInt 2%Z)])); ((VInt 5%Z), (VStr (lit "base-IV")))];
    parse_ec2_public_key ex_world [((VInt (-2)%Z), (VBytes (repeat x78 57))); ((VInt (-1)%Z), (VStr (lit "invalid"))); ((VInt 1%Z), (VInt 1%Z)); ((VInt 2%Z), (VBytes (blit "kid"))); ((VInt 3%Z), (VInt (-8)%Z)); ((VInt 4%Z), (VList [(VInt 1%Z); (VInt 2%Z)])); ((VInt 5%Z), (VBytes (blit "base-IV")))];
    parse_ec2_public_key ex_world [((VInt (-2)%Z), (VBytes (repeat x78 57))); ((VInt (-1)%Z), (VInt 7%Z)); ((VInt 1%Z), (VInt (-1)%Z)); ((VInt 2%Z), (VBytes (blit "kid"))); ((VInt 3%Z), (VInt (-8)%Z)); ((VInt 4%Z), (VList [(VInt 1%Z); (VInt 2%Z)])); ((VInt 5%Z), (VBytes (blit "base-IV")))];
    parse_ec2_public_key ex_world [((VInt (-2)%Z), (VBytes (repeat x78 57))); ((VInt (-1)%Z), (VInt 7%Z)); ((VInt 1%Z), (VInt 1%Z)); ((VInt 2%Z), (VBytes (blit "kid"))); ((VInt 3%Z), (VStr (lit "invalid"))); ((VInt 4%Z), (VList [(VInt 1%Z); (VInt 2%Z)])); ((VInt 5%Z), (VBytes (blit "base-IV")))];
    parse_ec2_public_key ex_world [((VInt (-2)%Z), (VBytes (repeat x78 57))); ((VInt (-1)%Z), (VInt 7%Z)); ((VInt 1%Z), (VInt 1%Z)); ((VInt 2%Z), (VBytes (blit "kid"))); ((VInt 3%Z), (VInt (-8)%Z)); ((VInt 4%Z), (VList [(VInt (-3)%Z)])); ((VInt 5%Z), (VBytes (blit "base-IV")))];
    parse_ec2_public_key ex_world [((VInt (-3)%Z), (VStr (lit "yyyyyyyyyyyyyyyyyyyyyyyyyyyyyyyy"))); ((VInt (-2)%Z), (VBytes (repeat x78 32))); ((VInt (-1)%Z), (VInt 1%Z)); ((VInt 1%Z), (VInt 2%Z)); ((VInt 2%Z), (VBytes (blit "kid"))); ((VInt 3%Z), (VInt (-7)%Z)); ((VInt 4%Z), (VList [(VInt 1%Z); (VInt 2%Z)])); ((VInt 5%Z), (VBytes (blit "base-IV")))];
    parse_ec2_public_key ex_world [((VInt (-3)%Z), (VBytes (repeat x79 48))); ((VInt (-2)%Z), (VStr (lit "xxxxxxxxxxxxxxxxxxxxxxxxxxxxxxxxxxxxxxxxxxxxxxxx"))); ((VInt (-1)%Z), (VInt 2%Z)); ((VInt 1%Z), (VInt 2%Z)); ((VInt 2%Z), (VBytes (blit "kid"))); ((VInt 3%Z), (VInt (-35)%Z)); ((VInt 4%Z), (VList [(VInt 1%Z); (VInt 2%Z)])); ((VInt 5%Z), (VBytes (blit "base-IV")))];
    parse_ec2_public_key ex_world [((VInt (-3)%Z), (VBytes (repeat x79 66))); ((VInt (-2)%Z), (VBytes (repeat x78 66))); ((VInt (-1)%Z), (VStr (lit "invalid"))); ((VInt 1%Z), (VInt 2%Z)); ((VInt 2%Z), (VBytes (blit "kid"))); ((VInt 3%Z), (VInt (-36)%Z)); ((VInt 4%Z), (VList [(VInt 1%Z); (VInt 2%Z)])); ((VInt 5%Z), (VBytes (blit "base-IV")))];
    parse_ec2_public_key ex_world [((VInt (-3)%Z), (VBytes (repeat x79 66))); ((VInt (-2)%Z), (VBytes (repeat x78 66))); ((VInt (-1)%Z), (VInt 3%Z)); ((VInt 1%Z), (VInt (-3)%Z)); ((VInt 2%Z), (VBytes (blit "kid"))); ((VInt 3%Z), (VInt (-36)%Z)); ((VInt 4%Z), (VList [(VInt 1%Z); (VInt 2%Z)])); ((VInt 5%Z), (VBytes (blit "base-IV")))];
    parse_ec2_public_key ex_world [((VInt (-3)%Z), (VBytes (repeat x79 66))); ((VInt (-2)%Z), (VBytes (repeat x78 66))); ((VInt (-1)%Z), (VInt 3%Z)); ((VInt 1%Z), (VInt 2%Z)); ((VInt 2%Z), (VStr (lit "kid"))); ((VInt 3%Z), (VInt (-36)%Z)); ((VInt 4%Z), (VList [(VInt 1%Z); (VInt 2%Z)])); ((VInt 5%Z), (VBytes (blit "base-IV")))];
    parse_ec2_public_key ex_world [((VInt (-3)%Z), (VBytes (repeat x79 66))); ((VInt (-2)%Z), (VBytes (repeat x78 66))); ((VInt (-1)%Z), (VInt 3%Z)); ((VInt 1%Z), (VInt 2%Z)); ((VInt 2%Z), (VBytes (blit "kid"))); ((VInt 3%Z), (VStr (lit "invalid"))); ((VInt 4%Z), (VList [(VInt 1%Z); (VInt 2%Z)])); ((VInt 5%Z), (VBytes (blit "base-IV")))];
    parse_ec2_public_key ex_world [((VInt (-3)%Z), (VBytes (repeat x79 66))); ((VInt (-2)%Z), (VBytes (repeat x78 66))); ((VInt (-1)%Z), (VInt 3%Z)); ((VInt 1%Z), (VInt 2%Z)); ((VInt 2%Z), (VBytes (blit "kid"))); ((VInt 3%Z), (VInt (-36)%Z)); ((VInt 4%Z), (VList [(VBytes (blit "x")); (VInt 1%Z); (VInt 2%Z)])); ((VInt 5%Z), (VBytes (blit "base-IV")))];
    parse_ec2_public_key ex_world [((VInt (-3)%Z), (VBytes (repeat x79 66))); ((VInt (-2)%Z), (VBytes (repeat x78 66))); ((VInt (-1)%Z), (VInt 3%Z)); ((VInt 1%Z), (VInt 2%Z)); ((VInt 2%Z), (VBytes (blit "kid"))); ((VInt 3%Z), (VInt (-36)%Z)); ((VInt 4%Z), (VList [(VInt 1%Z); (VInt 2%Z)])); ((VInt 5%Z), (VStr (lit "base-IV")))] ] = true.
Proof. vm_compute. reflexivity. Qed.

(** tests/test_parsers.py:935-976 *)
Example test_parse_extensions_success :
  [ parse_extensions ex_world [];
    parse_extensions ex_world [((VStr (lit "appid")), (VBool true)); ((VStr (lit "txAuthSimple")), (VStr (lit "auth"))); ((VStr (lit "txAuthGeneric")), (VBytes (blit "auth")))];
    parse_extensions ex_world [((VStr (lit "appid")), (VBool true)); ((VStr (lit "txAuthSimple")), (VStr (lit "auth"))); ((VStr (lit "authnSel")), (VBool true))];
    parse_extensions ex_world [((VStr (lit "appid")), (VBool true)); ((VStr (lit "txAuthSimple")), (VStr (lit "auth"))); ((VStr (lit "exts")), (VList [(VStr (lit "appid")); (VStr (lit "uvi"))]))];
    parse_extensions ex_world [((VStr (lit "appid")), (VBool true)); ((VStr (lit "txAuthSimple")), (VStr (lit "auth"))); ((VStr (lit "uvi")), (VBytes (blit "uvi")))];
    parse_extensions ex_world [((VStr (lit "appid")), (VBool true)); ((VStr (lit "txAuthSimple")), (VStr (lit "auth"))); ((VStr (lit "loc")), (VDict [((VStr (lit "latitude")), (VInt 1%Z)); ((VStr (lit "longitude")), (VInt 2%Z)); ((VStr (lit "altitude")), (VInt 3%Z)); ((VStr (lit "accuracy")), (VFloat 4616189618054758400%N)); ((VStr (lit "altitudeAccuracy")), (VFloat 4617315517961601024%N)); ((VStr (lit "heading")), (VFloat 4618441417868443648%N)); ((VStr (lit "speed")), (VFloat 4619567317775286272%N))]))];
    parse_extensions ex_world [((VStr (lit "appid")), (VBool true)); ((VStr (lit "txAuthSimple")), (VStr (lit "auth"))); ((VStr (lit "uvm")), (VList [(VList [(VInt 1%Z); (VInt 2%Z); (VInt 3%Z)]); (VList [(VInt 4%Z); (VInt 5%Z); (VInt 6%Z)])]))];
    parse_extensions ex_world [((VStr (lit "appid")), (VBool true)); ((VStr (lit "txAuthSimple")), (VStr (lit "auth"))); ((VStr (lit "biometricPerfBounds")), (VBool true))];
    parse_extensions ex_world [((VStr (lit "appid")), (VBool true)); ((VStr (lit "txAuthGeneric")), (VBytes (blit "auth"))); ((VStr (lit "authnSel")), (VBool true))];
    parse_extensions ex_world [((VStr (lit "appid")), (VBool true)); ((VStr (lit "txAuthGeneric")), (VBytes (blit "auth"))); ((VStr (lit "exts")), (VList [(VStr (lit "appid")); (VStr (lit "uvi"))]))];
    parse_extensions ex_world [((VStr (lit "appid")), (VBool true)); ((VStr (lit "txAuthGeneric")), (VBytes (blit "auth"))); ((VStr (lit "uvi")), (VBytes (blit "uvi")))];
    parse_extensions ex_world [((VStr (lit "appid")), (VBool true)); ((VStr (lit "txAuthGeneric")), (VBytes (blit "auth"))); ((VStr (lit "loc")), (VDict [((VStr (lit "latitude")), (VInt 1%Z)); ((VStr (lit "longitude")), (VInt 2%Z)); ((VStr (lit "altitude")), (VInt 3%Z)); ((VStr (lit "accuracy")), (VFloat 4616189618054758400%N)); ((VStr (lit "altitudeAccuracy")), (VFloat 4617315517961601024%N)); ((VStr (lit "heading")), (VFloat 4618441417868443648%N)); ((VStr (lit "speed")), (VFloat 4619567317775286272%N))]))];
    parse_extensions ex_world [((VStr (lit "appid")), (VBool true)); ((VStr (lit "txAuthGeneric")), (VBytes (blit "auth"))); ((VStr (lit "uvm")), (VList [(VList [(VInt 1%Z); (VInt 2%Z); (VInt 3%Z)]); (VList [(VInt 4%Z); (VInt 5%Z); (VInt 6%Z)])]))];
    parse_extensions ex_world [((VStr (lit "appid")), (VBool true)); ((VStr (lit "txAuthGeneric")), (VBytes (blit "auth"))); ((VStr (lit "biometricPerfBounds")), (VBool true))];
    parse_extensions ex_world [((VStr (lit "appid")), (VBool true)); ((VStr (lit "authnSel")), (VBool true)); ((VStr (lit "exts")), (VList [(VStr (lit "appid")); (VStr (lit "uvi"))]))];
    parse_extensions ex_world [((VStr (lit "appid")), (VBool true)); ((VStr (lit "authnSel")), (VBool true)); ((VStr (lit "uvi")), (VBytes (blit "uvi")))];
    parse_extensions ex_world [((VStr (lit "appid")), (VBool true)); ((VStr (lit "authnSel")), (VBool true)); ((VStr (lit "loc")), (VDict [((VStr (lit "latitude")), (VInt 1%Z)); ((VStr (lit "longitude")), (VInt 2%Z)); ((VStr (lit "altitude")), (VInt 3%Z)); ((VStr (lit "accuracy")), (VFloat 4616189618054758400%N)); ((VStr (lit "altitudeAccuracy")), (VFloat 4617315517961601024%N)); ((VStr (lit "heading")), (VFloat 4618441417868443648%N)); ((VStr (lit "speed")), (VFloat 4619567317775286272%N))]))];
    parse_extensions ex_world [((VStr (lit "appid")), (VBool true)); ((VStr (lit "authnSel")), (VBool true)); ((VStr (lit "uvm")), (VList [(VList [(VInt 1%Z); (VInt 2%Z); (VInt 3%Z)]); (VList [(VInt 4%Z); (VInt 5%Z); (VInt 6%Z)])]))];
    parse_extensions ex_world [((VStr (lit "appid")), (VBool true)); ((VStr (lit "authnSel")), (VBool true)); ((VStr (lit "biometricPerfBounds")), (VBool true))];
    parse_extensions ex_world [((VStr (lit "appid")), (VBool true)); ((VStr (lit "exts")), (VList [(VStr (lit "appid")); (VStr (lit "uvi"))])); ((VStr (lit "uvi")), (VBytes (blit "uvi")))];
    parse_extensions ex_world [((VStr (lit "appid")), (VBool true)); ((VStr (lit "exts")), (VList [(VStr (lit "appid")); (VStr (lit "uvi"))])); ((VStr (lit "loc")), (VDict [((VStr (lit "latitude")), (VInt 1%Z)); ((VStr (lit "longitude")), (VInt 2%Z)); ((VStr (lit "altitude")), (VInt 3%Z)); ((VStr (lit "accuracy")), (VFloat 4616189618054758400%N)); ((VStr (lit "altitudeAccuracy")), (VFloat 4617315517961601024%N)); ((VStr (lit "heading")), (VFloat 4618441417868443648%N)); ((VStr (lit "speed")), (VFloat 4619567317775286272%N))]))];
    parse_extensions ex_world [((VStr (lit "appid")), (VBool true)); ((VStr (lit "exts")), (VList [(VStr (lit "appid")); (VStr (lit "uvi"))])); ((VStr (lit "uvm")), (VList [(VList [(VInt 1%Z); (VInt 2%Z); (VInt 3%Z)]); (VList [(VInt 4%Z); (VInt 5%Z); (VInt 6%Z)])]))];
    parse_extensions ex_world [((VStr (lit "appid")), (VBool true)); ((VStr (lit "exts")), (VList [(VStr (lit "appid")); (VStr (lit "uvi"))])); ((VStr (lit "biometricPerfBounds")), (VBool true))];
    parse_extensions ex_world [((VStr (lit "appid")), (VBool true)); ((VStr (lit "uvi")), (VBytes (blit "uvi"))); ((VStr (lit "loc")), (VDict [((VStr (lit "latitude")), (VInt 1%Z)); ((VStr (lit "longitude")), (VInt 2%Z)); ((VStr (lit "altitude")), (VInt 3%Z)); ((VStr (lit "accuracy")), (VFloat 4616189618054758400%N)); ((VStr (lit "altitudeAccuracy")), (VFloat 4617315517961601024%N)); ((VStr (lit "heading")), (VFloat 4618441417868443648%N)); ((VStr (lit "speed")), (VFloat 4619567317775286272%N))]))];
    parse_extensions ex_world [((VStr (lit "appid")), (VBool true)); ((VStr (lit "uvi")), (VBytes (blit "uvi"))); ((VStr (lit "uvm")), (VList [(VList [(VInt 1%Z); (VInt 2%Z); (VInt 3%Z)]); (VList [(VInt 4%Z); (VInt 5%Z); (VInt 6%Z)])]))];
    parse_extensions ex_world [((VStr (lit "appid")), (VBool true)); ((VStr (lit "uvi")), (VBytes (blit "uvi"))); ((VStr (lit "biometricPerfBounds")), (VBool true))];
    parse_extensions ex_world [((VStr (lit "appid")), (VBool true)); ((VStr (lit "loc")), (VDict [((VStr (lit "latitude")), (VInt 1%Z)); ((VStr (lit "longitude")), (VInt 2%Z)); ((VStr (lit "altitude")), (VInt 3%Z)); ((VStr (lit "accuracy")), (VFloat 4616189618054758400%N)); ((VStr (lit "altitudeAccuracy")), (VFloat 4617315517961601024%N)); ((VStr (lit "heading")), (VFloat 4618441417868443648%N)); ((VStr (lit "speed")), (VFloat 4619567317775286272%N))])); ((VStr (lit "uvm")), (VList [(VList [(VInt 1%Z); (VInt 2%Z); (VInt 3%Z)]); (VList [(VInt 4%Z); (VInt 5%Z); (VInt 6%Z)])]))];
    parse_extensions ex_world [((VStr (lit "appid")), (VBool true)); ((VStr (lit "loc")), (VDict [((VStr (lit "latitude")), (VInt 1%Z)); ((VStr (lit "longitude")), (VInt 2%Z)); ((VStr (lit "altitude")), (VInt 3%Z)); ((VStr (lit "accuracy")), (VFloat 4616189618054758400%N)); ((VStr (lit "altitudeAccuracy")), (VFloat 4617315517961601024%N)); ((VStr (lit "heading")), (VFloat 4618441417868443648%N)); ((VStr (lit "speed")), (VFloat 4619567317775286272%N))])); ((VStr (lit "biometricPerfBounds")), (VBool true))];
    parse_extensions ex_world [((VStr (lit "appid")), (VBool true)); ((VStr (lit "uvm")), (VList [(VList [(VInt 1%Z); (VInt 2%Z); (VInt 3%Z)]); (VList [(VInt 4%Z); (VInt 5%Z); (VInt 6%Z)])])); ((VStr (lit "biometricPerfBounds")), (VBool true))];
    parse_extensions ex_world [((VStr (lit "txAuthSimple")), (VStr (lit "auth"))); ((VStr (lit "txAuthGeneric")), (VBytes (blit "auth"))); ((VStr (lit "authnSel")), (VBool true))];
    parse_extensions ex_world [((VStr (lit "txAuthSimple")), (VStr (lit "auth"))); ((VStr (lit "txAuthGeneric")), (VBytes (blit "auth"))); ((VStr (lit "exts")), (VList [(VStr (lit "appid")); (VStr (lit "uvi"))]))];
    parse_extensions ex_world [((VStr (lit "txAuthSimple")), (VStr (lit "auth"))); ((VStr (lit "txAuthGeneric")), (VBytes (blit "auth"))); ((VStr (lit "uvi")), (VBytes (blit "uvi")))];
    parse_extensions ex_world [((VStr (lit "txAuthSimple")), (VStr (lit "auth"))); ((VStr (lit "txAuthGeneric")), (VBytes (blit "auth"))); ((VStr (lit "loc")), (VDict [((VStr (lit "latitude")), (VInt 1%Z)); ((VStr (lit "longitude")), (VInt 2%Z)); ((VStr (lit "altitude")), (VInt 3%Z)); ((VStr (lit "accuracy")), (VFloat 4616189618054758400%N)); ((VStr (lit "altitudeAccuracy")), (VFloat 4617315517961601024%N)); ((VStr (lit "heading")), (VFloat 4618441417868443648%N)); ((VStr (lit "speed")), (VFloat 4619567317775286272%N))]))];
    parse_extensions ex_world [((VStr (lit "txAuthSimple")), (VStr (lit "auth"))); ((VStr (lit "txAuthGeneric")), (VBytes (blit "auth"))); ((VStr (lit "uvm")), (VList [(VList [(VInt 1%Z); (VInt 2%Z); (VInt 3%Z)]); (VList [(VInt 4%Z); (VInt 5%Z); (VInt 6%Z)])]))];
    parse_extensions ex_world [((VStr (lit "txAuthSimple")), (VStr (lit "auth"))); ((VStr (lit "txAuthGeneric")), (VBytes (blit "auth"))); ((VStr (lit "biometricPerfBounds")), (VBool true))];
    parse_extensions ex_world [((VStr (lit "txAuthSimple")), (VStr (lit "auth"))); ((VStr (lit "authnSel")), (VBool true)); ((VStr (lit "exts")), (VList [(VStr (lit "appid")); (VStr (lit "uvi"))]))];
    parse_extensions ex_world [((VStr (lit "txAuthSimple")), (VStr (lit "auth"))); ((VStr (lit "authnSel")), (VBool true)); ((VStr (lit "uvi")), (VBytes (blit "uvi")))];
    parse_extensions ex_world [((VStr (lit "txAuthSimple")), (VStr (lit "auth"))); ((VStr (lit "authnSel")), (VBool true)); ((VStr (lit "loc")), (VDict [((VStr (lit "latitude")), (VInt 1%Z)); ((VStr (lit "longitude")), (VInt 2%Z)); ((VStr (lit "altitude")), (VInt 3%Z)); ((VStr (lit "accuracy")), (VFloat 4616189618054758400%N)); ((VStr (lit "altitudeAccuracy")), (VFloat 4617315517961601024%N)); ((VStr (lit "heading")), (VFloat 4618441417868443648%N)); ((VStr (lit "speed")), (VFloat 4619567317775286272%N))]))];
    parse_extensions ex_world [((VStr (lit "txAuthSimple")), (VStr (lit "auth"))); ((VStr (lit "authnSel")), (VBool true)); ((VStr (lit "uvm")), (VList [(VList [(VInt 1%Z); (VInt 2%Z); (VInt 3%Z)]); (VList [(VInt 4%Z); (VInt 5%Z); (VInt 6%Z)])]))];
    parse_extensions ex_world [((VStr (lit "txAuthSimple")), (VStr (lit "auth"))); ((VStr (lit "authnSel")), (VBool true)); ((VStr (lit "biometricPerfBounds")), (VBool true))];
    parse_extensions ex_world [((VStr (lit "txAuthSimple")), (VStr (lit "auth"))); ((VStr (lit "exts")), (VList [(VStr (lit "appid")); (VStr (lit "uvi"))])); ((VStr (lit "uvi")), (VBytes (blit "uvi")))];
    parse_extensions ex_world [((VStr (lit "txAuthSimple")), (VStr (lit "auth"))); ((VStr (lit "exts")), (VList [(VStr (lit "appid")); (VStr (lit "uvi"))])); ((VStr (lit "loc")), (VDict [((VStr (lit "latitude")), (VInt 1%Z)); ((VStr (lit "longitude")), (VInt 2%Z)); ((VStr (lit "altitude")), (VInt 3%Z)); ((VStr (lit "accuracy")), (VFloat 4616189618054758400%N)); ((VStr (lit "altitudeAccuracy")), (VFloat 4617315517961601024%N)); ((VStr (lit "heading")), (VFloat 4618441417868443648%N)); ((VStr (lit "speed")), (VFloat 4619567317775286272%N))]))];
    parse_extensions ex_world [((VStr (lit "txAuthSimple")), (VStr (lit "auth"))); ((VStr (lit "exts")), (VList [(VStr (lit "appid")); (VStr (lit "uvi"))])); ((VStr (lit "uvm")), (VList [(VList [(VInt 1%Z); (VInt 2%Z); (VInt 3%Z)]); (VList [(VInt 4%Z); (VInt 5%Z); (VInt 6%Z)])]))];
    parse_extensions ex_world [((VStr (lit "txAuthSimple")), (VStr (lit "auth"))); ((VStr (lit "exts")), (VList [(VStr (lit "appid")); (VStr (lit "uvi"))])); ((VStr (lit "biometricPerfBounds")), (VBool true))];
    parse_extensions ex_world [((VStr (lit "txAuthSimple")), (VStr (lit "auth"))); ((VStr (lit "uvi")), (VBytes (blit "uvi"))); ((VStr (lit "loc")), (VDict [((VStr (lit "latitude")), (VInt 1%Z)); ((VStr (lit "longitude")), (VInt 2%Z)); ((VStr (lit "altitude")), (VInt 3%Z)); ((VStr (lit "accuracy")), (VFloat 4616189618054758400%N)); ((VStr (lit "altitudeAccuracy")), (VFloat 4617315517961601024%N)); ((VStr (lit "heading")), (VFloat 4618441417868443648%N)); ((VStr (lit "speed")), (VFloat 4619567317775286272%N))]))];
    parse_extensions ex_world [((VStr (lit "txAuthSimple")), (VStr (lit "auth"))); ((VStr (lit "uvi")), (VBytes (blit "uvi"))); ((VStr (lit "uvm")), (VList [(VList [(VInt 1%Z); (VInt 2%Z); (VInt 3%Z)]); (VList [(VInt 4%Z); (VInt 5%Z); (VInt 6%Z)])]))];
    parse_extensions ex_world [((VStr (lit "txAuthSimple")), (VStr (lit "auth"))); ((VStr (lit "uvi")), (VBytes (blit "uvi"))); ((VStr (lit "biometricPerfBounds")), (VBool true))];
    parse_extensions ex_world [((VStr (lit "txAuthSimple")), (VStr (lit "auth"))); ((VStr (lit "loc")), (VDict [((VStr (lit "latitude")), (VInt 1%Z)); ((VStr (lit "longitude")), (VInt 2%Z)); ((VStr (lit "altitude")), (VInt 3%Z)); ((VStr (lit "accuracy")), (VFloat 4616189618054758400%N)); ((VStr (lit "altitudeAccuracy")), (VFloat 4617315517961601024%N)); ((VStr (lit "heading")), (VFloat 4618441417868443648%N)); ((VStr (lit "speed")), (VFloat 4619567317775286272%N))])); ((VStr (lit "uvm")), (VList [(VList [(VInt 1%Z); (VInt 2%Z); (VInt 3%Z)]); (VList [(VInt 4%Z); (VInt 5%Z); (VInt 6%Z)])]))];
    parse_extensions ex_world [((VStr (lit "txAuthSimple")), (VStr (lit "auth"))); ((VStr (lit "loc")), (VDict [((VStr (lit "latitude")), (VInt 1%Z)); ((VStr (lit "longitude")), (VInt 2%Z)); ((VStr (lit "altitude")), (VInt 3%Z)); ((VStr (lit "accuracy")), (VFloat 4616189618054758400%N)); ((VStr (lit "altitudeAccuracy")), (VFloat 4617315517961601024%N)); ((VStr (lit "heading")), (VFloat 4618441417868443648%N)); ((VStr (lit "speed")), (VFloat 4619567317775286272%N))])); ((VStr (lit "biometricPerfBounds")), (VBool true))];
    parse_extensions ex_world [((VStr (lit "txAuthSimple")), (VStr (lit "auth"))); ((VStr (lit "uvm")), (VList [(VList [(VInt 1%Z); (VInt 2%Z); (VInt 3%Z)]); (VList [(VInt 4%Z); (VInt 5%Z); (VInt 6%Z)])])); ((VStr (lit "biometricPerfBounds")), (VBool true))];
    parse_extensions ex_world [((VStr (lit "txAuthGeneric")), (VBytes (blit "auth"))); ((VStr (lit "authnSel")), (VBool true)); ((VStr (lit "exts")), (VList [(VStr (lit "appid")); (VStr (lit "uvi"))]))];
    parse_extensions ex_world [((VStr (lit "txAuthGeneric")), (VBytes (blit "auth"))); ((VStr (lit "authnSel")), (VBool true)); ((VStr (lit "uvi")), (VBytes (blit "uvi")))];
    parse_extensions ex_world [((VStr (lit "txAuthGeneric")), (VBytes (blit "auth"))); ((VStr (lit "authnSel")), (VBool true)); ((VStr (lit "loc")), (VDict [((VStr (lit "latitude")), (VInt 1%Z)); ((VStr (lit "longitude")), (VInt 2%Z)); ((VStr (lit "altitude")), (VInt 3%Z)); ((VStr (lit "accuracy")), (VFloat 4616189618054758400%N)); ((VStr (lit "altitudeAccuracy")), (VFloat 4617315517961601024%N)); ((VStr (lit "heading")), (VFloat 4618441417868443648%N)); ((VStr (lit "speed")), (VFloat 4619567317775286272%N))]))];
    parse_extensions ex_world [((VStr (lit "txAuthGeneric")), (VBytes (blit "auth"))); ((VStr (lit "authnSel")), (VBool true)); ((VStr (lit "uvm")), (VList [(VList [(VInt 1%Z); (VInt 2%Z); (VInt 3%Z)]); (VList [(VInt 4%Z); (VInt 5%Z); (VInt 6%Z)])]))];
    parse_extensions ex_world [((VStr (lit "txAuthGeneric")), (VBytes (blit "auth"))); ((VStr (lit "authnSel")), (VBool true)); ((VStr (lit "biometricPerfBounds")), (VBool true))];
    parse_extensions ex_world [((VStr (lit "txAuthGeneric")), (VBytes (blit "auth"))); ((VStr (lit "exts")), (VList [(VStr (lit "appid")); (VStr (lit "uvi"))])); ((VStr (lit "uvi")), (VBytes (blit "uvi")))];
    parse_extensions ex_world [((VStr (lit "txAuthGeneric")), (VBytes (blit "auth"))); ((VStr (lit "exts")), (VList [(VStr (lit "appid")); (VStr (lit "uvi"))])); ((VStr (lit "loc")), (VDict [((VStr (lit "latitude")), (VInt 1%Z)); ((VStr (lit "longitude")), (VInt 2%Z)); ((VStr (lit "altitude")), (VInt 3%Z)); ((VStr (lit "accuracy")), (VFloat 4616189618054758400%N)); ((VStr (lit "altitudeAccuracy")), (VFloat 4617315517961601024%N)); ((VStr (lit "heading")), (VFloat 4618441417868443648%N)); ((VStr (lit "speed")), (VFloat 4619567317775286272%N))]))];
    parse_extensions ex_world [((VStr (lit "txAuthGeneric")), (VBytes (blit "auth"))); ((VStr (lit "exts")), (VList [(VStr (lit "appid")); (VStr (lit "uvi"))])); ((VStr (lit "uvm")), (VList [(VList [(VInt 1%Z); (VInt 2%Z); (VInt 3%Z)]); (VList [(VInt 4%Z); (VInt 5%Z); (VInt 6%Z)])]))];
    parse_extensions ex_world [((VStr (lit "txAuthGeneric")), (VBytes (blit "auth"))); ((VStr (lit "exts")), (VList [(VStr (lit "appid")); (VStr (lit "uvi"))])); ((VStr (lit "biometricPerfBounds")), (VBool true))];
    parse_extensions ex_world [((VStr (lit "txAuthGeneric")), (VBytes (blit "auth"))); ((VStr (lit "uvi")), (VBytes (blit "uvi"))); ((VStr (lit "loc")), (VDict [((VStr (lit "latitude")), (VInt 1%Z)); ((VStr (lit "longitude")), (VInt 2%Z)); ((VStr (lit "altitude")), (VInt 3%Z)); ((VStr (lit "accuracy")), (VFloat 4616189618054758400%N)); ((VStr (lit "altitudeAccuracy")), (VFloat 4617315517961601024%N)); ((VStr (lit "heading")), (VFloat 4618441417868443648%N)); ((VStr (lit "speed")), (VFloat 4619567317775286272%N))]))];
    parse_extensions ex_world [((VStr (lit "txAuthGeneric")), (VBytes (blit "auth"))); ((VStr (lit "uvi")), (VBytes (blit "uvi"))); ((VStr (lit "uvm")), (VList [(VList [(VInt 1%Z); (VInt 2%Z); (VInt 3%Z)]); (VList [(VInt 4%Z); (VInt 5%Z); (VInt 6%Z)])]))];
    parse_extensions ex_world [((VStr (lit "txAuthGeneric")), (VBytes (blit "auth"))); ((VStr (lit "uvi")), (VBytes (blit "uvi"))); ((VStr (lit "biometricPerfBounds")), (VBool true))];
    parse_extensions ex_world [((VStr (lit "txAuthGeneric")), (VBytes (blit "auth"))); ((VStr (lit "loc")), (VDict [((VStr (lit "latitude")), (VInt 1%Z)); ((VStr (lit "longitude")), (VInt 2%Z)); ((VStr (lit "altitude")), (VInt 3%Z)); ((VStr (lit "accuracy")), (VFloat 4616189618054758400%N)); ((VStr (lit "altitudeAccuracy")), (VFloat 4617315517961601024%N)); ((VStr (lit "heading")), (VFloat 4618441417868443648%N)); ((VStr (lit "speed")), (VFloat 4619567317775286272%N))])); ((VStr (lit "uvm")), (VList [(VList [(VInt 1%Z); (VInt 2%Z); (VInt 3%Z)]); (VList [(VInt 4%Z); (VInt 5%Z); (VInt 6%Z)])]))];
    parse_extensions ex_world [((VStr (lit "txAuthGeneric")), (VBytes (blit "auth"))); ((VStr (lit "loc")), (VDict [((VStr (lit "latitude")), (VInt 1%Z)); ((VStr (lit "longitude")), (VInt 2%Z)); ((VStr (lit "altitude")), (VInt 3%Z)); ((VStr (lit "accuracy")), (VFloat 4616189618054758400%N)); ((VStr (lit "altitudeAccuracy")), (VFloat 4617315517961601024%N)); ((VStr (lit "heading")), (VFloat 4618441417868443648%N)); ((VStr (lit "speed")), (VFloat 4619567317775286272%N))])); ((VStr (lit "biometricPerfBounds")), (VBool true))];
    parse_extensions ex_world [((VStr (lit "txAuthGeneric")), (VBytes (blit "auth"))); ((VStr (lit "uvm")), (VList [(VList [(VInt 1%Z); (VInt 2%Z); (VInt 3%Z)]); (VList [(VInt 4%Z); (VInt 5%Z); (VInt 6%Z)])])); ((VStr (lit "biometricPerfBounds")), (VBool true))];
    parse_extensions ex_world [((VStr (lit "authnSel")), (VBool true)); ((VStr (lit "exts")), (VList [(VStr (lit "appid")); (VStr (lit "uvi"))])); ((VStr (lit "uvi")), (VBytes (blit "uvi")))];
    parse_extensions ex_world [((VStr (lit "authnSel")), (VBool true)); ((VStr (lit "exts")), (VList [(VStr (lit "appid")); (VStr (lit "uvi"))])); ((VStr (lit "loc")), (VDict [((VStr (lit "latitude")), (VInt 1%Z)); ((VStr (lit "longitude")), (VInt 2%Z)); ((VStr (lit "altitude")), (VInt 3%Z)); ((VStr (lit "accuracy")), (VFloat 4616189618054758400%N)); ((VStr (lit "altitudeAccuracy")), (VFloat 4617315517961601024%N)); ((VStr (lit "heading")), (VFloat 4618441417868443648%N)); ((VStr (lit "speed")), (VFloat 4619567317775286272%N))]))];
    parse_extensions ex_world [((VStr (lit "authnSel")), (VBool true)); ((VStr (lit "exts")), (VList [(VStr (lit "appid")); (VStr (lit "uvi"))])); ((VStr (lit "uvm")), (VList [(VList [(VInt 1%Z); (VInt 2%Z); (VInt 3%Z)]); (VList [(VInt 4%Z); (VInt 5%Z); (VInt 6%Z)])]))];
    parse_extensions ex_world [((VStr (lit "authnSel")), (VBool true)); ((VStr (lit "exts")), (VList [(VStr (lit "appid")); (VStr (lit "uvi"))])); ((VStr (lit "biometricPerfBounds")), (VBool true))];
    parse_extensions ex_world [((VStr (lit "authnSel")), (VBool true)); ((VStr (lit "uvi")), (VBytes (blit "uvi"))); ((VStr (lit "loc")), (VDict [((VStr (lit "latitude")), (VInt 1%Z)); ((VStr (lit "longitude")), (VInt 2%Z)); ((VStr (lit "altitude")), (VInt 3%Z)); ((VStr (lit "accuracy")), (VFloat 4616189618054758400%N)); ((VStr (lit "altitudeAccuracy")), (VFloat 4617315517961601024%N)); ((VStr (lit "heading")), (VFloat 4618441417868443648%N)); ((VStr (lit "speed")), (VFloat 4619567317775286272%N))]))];
    parse_extensions ex_world [((VStr (lit "authnSel")), (VBool true)); ((VStr (lit "uvi")), (VBytes (blit "uvi"))); ((VStr (lit "uvm")), (VList [(VList [(VInt 1%Z); (VInt 2%Z); (VInt 3%Z)]); (VList [(VInt 4%Z); (VInt 5%Z); (VInt 6%Z)])]))];
    parse_extensions ex_world [((VStr (lit "authnSel")), (VBool true)); ((VStr (lit "uvi")), (VBytes (blit "uvi"))); ((VStr (lit "biometricPerfBounds")), (VBool true))];
    parse_extensions ex_world [((VStr (lit "authnSel")), (VBool true)); ((VStr (lit "loc")), (VDict [((VStr (lit "latitude")), (VInt 1%Z)); ((VStr (lit "longitude")), (VInt 2%Z)); ((VStr (lit "altitude")), (VInt 3%Z)); ((VStr (lit "accuracy")), (VFloat 4616189618054758400%N)); ((VStr (lit "altitudeAccuracy")), (VFloat 4617315517961601024%N)); ((VStr (lit "heading")), (VFloat 4618441417868443648%N)); ((VStr (lit "speed")), (VFloat 4619567317775286272%N))])); ((VStr (lit "uvm")), (VList [(VList [(VInt 1%Z); (VInt 2%Z); (VInt 3%Z)]); (VList [(VInt 4%Z); (VInt 5%Z); (VInt 6%Z)])]))];
    parse_extensions ex_world [((VStr (lit "authnSel")), (VBool true)); ((VStr (lit "loc")), (VDict [((VStr (lit "latitude")), (VInt 1%Z)); ((VStr (lit "longitude")), (VInt 2%Z)); ((VStr (lit "altitude")), (VInt 3%Z)); ((VStr (lit "accuracy")), (VFloat 4616189618054758400%N)); ((VStr (lit "altitudeAccuracy")), (VFloat 4617315517961601024%N)); ((VStr (lit "heading")), (VFloat 4618441417868443648%N)); ((VStr (lit "speed")), (VFloat 4619567317775286272%N))])); ((VStr (lit "biometricPerfBounds")), (VBool true))];
    parse_extensions ex_world [((VStr (lit "authnSel")), (VBool true)); ((VStr (lit "uvm")), (VList [(VList [(VInt 1%Z); (VInt 2%Z); (VInt 3%Z)]); (VList [(VInt 4%Z); (VInt 5%Z); (VInt 6%Z)])])); ((VStr (lit "biometricPerfBounds")), (VBool true))];
    parse_extensions ex_world [((VStr (lit "exts")), (VList [(VStr (lit "appid")); (VStr (lit "uvi"))])); ((VStr (lit "uvi")), (VBytes (blit "uvi"))); ((VStr (lit "loc")), (VDict [((VStr (lit "latitude")), (VInt 1%Z)); ((VStr (lit "longitude")), (VInt 2%Z)); ((VStr (lit "altitude")), (VInt 3%Z)); ((VStr (lit "accuracy")), (VFloat 4616189618054758400%N)); ((VStr (lit "altitudeAccuracy")), (VFloat 4617315517961601024%N)); ((VStr (lit "heading")), (VFloat 4618441417868443648%N)); ((VStr (lit "speed")), (VFloat 4619567317775286272%N))]))];
    parse_extensions ex_world [((VStr (lit "exts")), (VList [(VStr (lit "appid")); (VStr (lit "uvi"))])); ((VStr (lit "uvi")), (VBytes (blit "uvi"))); ((VStr (lit "uvm")), (VList [(VList [(VInt 1%Z); (VInt 2%Z); (VInt 3%Z)]); (VList [(VInt 4%Z); (VInt 5%Z); (VInt 6%Z)])]))];
    parse_extensions ex_world [((VStr (lit "exts")), (VList [(VStr (lit "appid")); (VStr (lit "uvi"))])); ((VStr (lit "uvi")), (VBytes (blit "uvi"))); ((VStr (lit "biometricPerfBounds")), (VBool true))];
    parse_extensions ex_world [((VStr (lit "exts")), (VList [(VStr (lit "appid")); (VStr (lit "uvi"))])); ((VStr (lit "loc")), (VDict [((VStr (lit "latitude")), (VInt 1%Z)); ((VStr (lit "longitude")), (VInt 2%Z)); ((VStr (lit "altitude")), (VInt 3%Z)); ((VStr (lit "accuracy")), (VFloat 4616189618054758400%N)); ((VStr (lit "altitudeAccuracy")), (VFloat 4617315517961601024%N)); ((VStr (lit "heading")), (VFloat 4618441417868443648%N)); ((VStr (lit "speed")), (VFloat 4619567317775286272%N))])); ((VStr (lit "uvm")), (VList [(VList [(VInt 1%Z); (VInt 2%Z); (VInt 3%Z)]); (VList [(VInt 4%Z); (VInt 5%Z); (VInt 6%Z)])]))];
    parse_extensions ex_world [((VStr (lit "exts")), (VList [(VStr (lit "appid")); (VStr (lit "uvi"))])); ((VStr (lit "loc")), (VDict [((VStr (lit "latitude")), (VInt 1%Z)); ((VStr (lit "longitude")), (VInt 2%Z)); ((VStr (lit "altitude")), (VInt 3%Z)); ((VStr (lit "accuracy")), (VFloat 4616189618054758400%N)); ((VStr (lit "altitudeAccuracy")), (VFloat 4617315517961601024%N)); ((VStr (lit "heading")), (VFloat 4618441417868443648%N)); ((VStr (lit "speed")), (VFloat 4619567317775286272%N))])); ((VStr (lit "biometricPerfBounds")), (VBool true))];
    parse_extensions ex_world [((VStr (lit "exts")), (VList [(VStr (lit "appid")); (VStr (lit "uvi"))])); ((VStr (lit "uvm")), (VList [(VList [(VInt 1%Z); (VInt 2%Z); (VInt 3%Z)]); (VList [(VInt 4%Z); (VInt 5%Z); (VInt 6%Z)])])); ((VStr (lit "biometricPerfBounds")), (VBool true))];
    parse_extensions ex_world [((VStr (lit "uvi")), (VBytes (blit "uvi"))); ((VStr (lit "loc")), (VDict [((VStr (lit "latitude")), (VInt 1%Z)); ((VStr (lit "longitude")), (VInt 2%Z)); ((VStr (lit "altitude")), (VInt 3%Z)); ((VStr (lit "accuracy")), (VFloat 4616189618054758400%N)); ((VStr (lit "altitudeAccuracy")), (VFloat 4617315517961601024%N)); ((VStr (lit "heading")), (VFloat 4618441417868443648%N)); ((VStr (lit "speed")), (VFloat 4619567317775286272%N))])); ((VStr (lit "uvm")), (VList [(VList [(VInt 1%Z); (VInt 2%Z); (VInt 3%Z)]); (VList [(VInt 4%Z); (VInt 5%Z); (VInt 6%Z)])]))];
    parse_extensions ex_world [((VStr (lit "uvi")), (VBytes (blit "uvi"))); ((VStr (lit "loc")), (VDict [((VStr (lit "latitude")), (VInt 1%Z)); ((VStr (lit "longitude")), (VInt 2%Z)); ((VStr (lit "altitude")), (VInt 3%Z)); ((VStr (lit "accuracy")), (VFloat 4616189618054758400%N)); ((VStr (lit "altitudeAccuracy")), (VFloat 4617315517961601024%N)); ((VStr (lit "heading")), (VFloat 4618441417868443648%N)); ((VStr (lit "speed")), (VFloat 4619567317775286272%N))])); ((VStr (lit "biometricPerfBounds")), (VBool true))];
    parse_extensions ex_world [((VStr (lit "uvi")), (VBytes (blit "uvi"))); ((VStr (lit "uvm")), (VList [(VList [(VInt 1%Z); (VInt 2%Z); (VInt 3%Z)]); (VList [(VInt 4%Z); (VInt 5%Z); (VInt 6%Z)])])); ((VStr (lit "biometricPerfBounds")), (VBool true))];
    parse_extensions ex_world [((VStr (lit "loc")), (VDict [((VStr (lit "latitude")), (VInt 1%Z)); ((VStr (lit "longitude")), (VInt 2%Z)); ((VStr (lit "altitude")), (VInt 3%Z)); ((VStr (lit "accuracy")), (VFloat 4616189618054758400%N)); ((VStr (lit "altitudeAccuracy")), (VFloat 4617315517961601024%N)); ((VStr (lit "heading")), (VFloat 4618441417868443648%N)); ((VStr (lit "speed")), (VFloat 4619567317775286272%N))])); ((VStr (lit "uvm")), (VList [(VList [(VInt 1%Z); (VInt 2%Z); (VInt 3%Z)]); (VList [(VInt 4%Z); (VInt 5%Z); (VInt 6%Z)])])); ((VStr (lit "biometricPerfBounds")), (VBool true))] ]
  = [ Ok {| ex_appid := None; ex_tx_auth_simple := None; ex_tx_auth_generic := None; ex_authn_sel := None; ex_exts := None; ex_uvi := None; ex_loc := None; ex_uvm := None; ex_biometric_perf_bounds := None |};
    Ok {| ex_appid := (Some true); ex_tx_auth_simple := (Some (lit "auth")); ex_tx_auth_generic := (Some (blit "auth")); ex_authn_sel := None; ex_exts := None; ex_uvi := None; ex_loc := None; ex_uvm := None; ex_biometric_perf_bounds := None |};
    Ok {| ex_appid := (Some true); ex_tx_auth_simple := (Some (lit "auth")); ex_tx_auth_generic := None; ex_authn_sel := (Some true); ex_exts := None; ex_uvi := None; ex_loc := None; ex_uvm := None; ex_biometric_perf_bounds := None |};
    Ok {| ex_appid := (Some true); ex_tx_auth_simple := (Some (lit "auth")); ex_tx_auth_generic := None; ex_authn_sel := None; ex_exts := (Some [(lit "appid"); (lit "uvi")]); ex_uvi := None; ex_loc := None; ex_uvm := None; ex_biometric_perf_bounds := None |};
    Ok {| ex_appid := (Some true); ex_tx_auth_simple := (Some (lit "auth")); ex_tx_auth_generic := None; ex_authn_sel := None; ex_exts := None; ex_uvi := (Some (blit "uvi")); ex_loc := None; ex_uvm := None; ex_biometric_perf_bounds := None |};
    Ok {| ex_appid := (Some true); ex_tx_auth_simple := (Some (lit "auth")); ex_tx_auth_generic := None; ex_authn_sel := None; ex_exts := None; ex_uvi := None; ex_loc := (Some {| co_latitude := (VInt 1%Z); co_longitude := (VInt 2%Z); co_altitude := (VInt 3%Z); co_accuracy := (VFloat 4616189618054758400%N); co_altitude_accuracy := (VFloat 4617315517961601024%N); co_heading := (VFloat 4618441417868443648%N); co_speed := (VFloat 4619567317775286272%N) |}); ex_uvm := None; ex_biometric_perf_bounds := None |};
    Ok {| ex_appid := (Some true); ex_tx_auth_simple := (Some (lit "auth")); ex_tx_auth_generic := None; ex_authn_sel := None; ex_exts := None; ex_uvi := None; ex_loc := None; ex_uvm := (Some [[1%Z; 2%Z; 3%Z]; [4%Z; 5%Z; 6%Z]]); ex_biometric_perf_bounds := None |};
    Ok {| ex_appid := (Some true); ex_tx_auth_simple := (Some (lit "auth")); ex_tx_auth_generic := None; ex_authn_sel := None; ex_exts := None; ex_uvi := None; ex_loc := None; ex_uvm := None; ex_biometric_perf_bounds := (Some true) |};
    Ok {| ex_appid := (Some true); ex_tx_auth_simple := None; ex_tx_auth_generic := (Some (blit "auth")); ex_authn_sel := (Some true); ex_exts := None; ex_uvi := None; ex_loc := None; ex_uvm := None; ex_biometric_perf_bounds := None |};
    Ok {| ex_appid := (Some true); ex_tx_auth_simple := None; ex_tx_auth_generic := (Some (blit "auth")); ex_authn_sel := None; ex_exts := (Some [(lit "appid"); (lit "uvi")]); ex_uvi := None; ex_loc := None; ex_uvm := None; ex_biometric_perf_bounds := None |};
    Ok {| ex_appid := (Some true); ex_tx_auth_simple := None; ex_tx_auth_generic := (Some (blit "auth")); ex_authn_sel := None; ex_exts := None; ex_uvi := (Some (blit "uvi")); ex_loc := None; ex_uvm := None; ex_biometric_perf_bounds := None |};
    Ok {| ex_appid := (Some true); ex_tx_auth_simple := None; ex_tx_auth_generic := (Some (blit "auth")); ex_authn_sel := None; ex_exts := None; ex_uvi := None; ex_loc := (Some {| co_latitude := (VInt 1%Z); co_longitude := (VInt 2%Z); co_altitude := (VInt 3%Z); co_accuracy := (VFloat 4616189618054758400%N); co_altitude_accuracy := (VFloat 4617315517961601024%N); co_heading := (VFloat 4618441417868443648%N); co_speed := (VFloat 4619567317775286272%N) |}); ex_uvm := None; ex_biometric_perf_bounds := None |};
    Ok {| ex_appid := (Some true); ex_tx_auth_simple := None; ex_tx_auth_generic := (Some (blit "auth")); ex_authn_sel := None; ex_exts := None; ex_uvi := None; ex_loc := None; ex_uvm := (Some [[1%Z; 2%Z; 3%Z]; [4%Z; 5%Z; 6%Z]]); ex_biometric_perf_bounds := None |};
    Ok {| ex_appid := (Some true); ex_tx_auth_simple := None; ex_tx_auth_generic := (Some (blit "auth")); ex_authn_sel := None; ex_exts := None; ex_uvi := None; ex_loc := None; ex_uvm := None; ex_biometric_perf_bounds := (Some true) |};
    Ok {| ex_appid := (Some true); ex_tx_auth_simple := None; ex_tx_auth_generic := None; ex_authn_sel := (Some true); ex_exts := (Some [(lit "appid"); (lit "uvi")]); ex_uvi := None; ex_loc := None; ex_uvm := None; ex_biometric_perf_bounds := None |};
    Ok {| ex_appid := (Some true); ex_tx_auth_simple := None; ex_tx_auth_generic := None; ex_authn_sel := (Some true); ex_exts := None; ex_uvi := (Some (blit "uvi")); ex_loc := None; ex_uvm := None; ex_biometric_perf_bounds := None |};
    Ok {| ex_appid := (Some true); ex_tx_auth_simple := None; ex_tx_auth_generic := None; ex_authn_sel := (Some true); ex_exts := None; ex_uvi := None; ex_loc := (Some {| co_latitude := (VInt 1%Z); co_longitude := (VInt 2%Z); co_altitude := (VInt 3%Z); co_accuracy := (VFloat 4616189618054758400%N); co_altitude_accuracy := (VFloat 4617315517961601024%N); co_heading := (VFloat 4618441417868443648%N); co_speed := (VFloat 4619567317775286272%N) |}); ex_uvm := None; ex_biometric_perf_bounds := None |};
    Ok {| ex_appid := (Some true); ex_tx_auth_simple := None; ex_tx_auth_generic := None; ex_authn_sel := (Some true); ex_exts := None; ex_uvi := None; ex_loc := None; ex_uvm := (Some [[1%Z; 2%Z; 3%Z]; [4%Z; 5%Z; 6%Z]]); ex_biometric_perf_bounds := None |};
    Ok {| ex_appid := (Some true); ex_tx_auth_simple := None; ex_tx_auth_generic := None; ex_authn_sel := (Some true); ex_exts := None; ex_uvi := None; ex_loc := None; ex_uvm := None; ex_biometric_perf_bounds := (Some true) |};
    Ok {| ex_appid := (Some true); ex_tx_auth_simple := None; ex_tx_auth_generic := None; ex_authn_sel := None; ex_exts := (Some [(lit "appid"); (lit "uvi")]); ex_uvi := (Some (blit "uvi")); ex_loc := None; ex_uvm := None; ex_biometric_perf_bounds := None |};
    Ok {| ex_appid := (Some true); ex_tx_auth_simple := None; ex_tx_auth_generic := None; ex_authn_sel := None; ex_exts := (Some [(lit "appid"); (lit "uvi")]); ex_uvi := None; ex_loc := (Some {| co_latitude := (VInt 1%Z); co_longitude := (VInt 2%Z); co_altitude := (VInt 3%Z); co_accuracy := (VFloat 4616189618054758400%N); co_altitude_accuracy := (VFloat 4617315517961601024%N); co_heading := (VFloat 4618441417868443648%N); co_speed := (VFloat 4619567317775286272%N) |}); ex_uvm := None; ex_biometric_perf_bounds := None |};
    Ok {| ex_appid := (Some true); ex_tx_auth_simple := None; ex_tx_auth_generic := None; ex_authn_sel := None; ex_exts := (Some [(lit "appid"); (lit "uvi")]); ex_uvi := None; ex_loc := None; ex_uvm := (Some [[1%Z; 2%Z; 3%Z]; [4%Z; 5%Z; 6%Z]]); ex_biometric_perf_bounds := None |};
    Ok {| ex_appid := (Some true); ex_tx_auth_simple := None; ex_tx_auth_generic := None; ex_authn_sel := None; ex_exts := (Some [(lit "appid"); (lit "uvi")]); ex_uvi := None; ex_loc := None; ex_uvm := None; ex_biometric_perf_bounds := (Some true) |};
    Ok {| ex_appid := (Some true); ex_tx_auth_simple := None; ex_tx_auth_generic := None; ex_authn_sel := None; ex_exts := None; ex_uvi := (Some (blit "uvi")); ex_loc := (Some {| co_latitude := (VInt 1%Z); co_longitude := (VInt 2%Z); co_altitude := (VInt 3%Z); co_accuracy := (VFloat 4616189618054758400%N); co_altitude_accuracy := (VFloat 4617315517961601024%N); co_heading := (VFloat 4618441417868443648%N); co_speed := (VFloat 4619567317775286272%N) |}); ex_uvm := None; ex_biometric_perf_bounds := None |};
    Ok {| ex_appid := (Some true); ex_tx_auth_simple := None; ex_tx_auth_generic := None; ex_authn_sel := None; ex_exts := None; ex_uvi := (Some (blit "uvi")); ex_loc := None; ex_uvm := (Some [[1%Z; 2%Z; 3%Z]; [4%Z; 5%Z; 6%Z]]); ex_biometric_perf_bounds := None |};
    Ok {| ex_appid := (Some true); ex_tx_auth_simple := None; ex_tx_auth_generic := None; ex_authn_sel := None; ex_exts := None; ex_uvi := (Some (blit "uvi")); ex_loc := None; ex_uvm := None; ex_biometric_perf_bounds := (Some true) |};
    Ok {| ex_appid := (Some true); ex_tx_auth_simple := None; ex_tx_auth_generic := None; ex_authn_sel := None; ex_exts := None; ex_uvi := None; ex_loc := (Some {| co_latitude := (VInt 1%Z); co_longitude := (VInt 2%Z); co_altitude := (VInt 3%Z); co_accuracy := (VFloat 4616189618054758400%N); co_altitude_accuracy := (VFloat 4617315517961601024%N); co_heading := (VFloat 4618441417868443648%N); co_speed := (VFloat 4619567317775286272%N) |}); ex_uvm := (Some [[1%Z; 2%Z; 3%Z]; [4%Z; 5%Z; 6%Z]]); ex_biometric_perf_bounds := None |};
    Ok {| ex_appid := (Some true); ex_tx_auth_simple := None; ex_tx_auth_generic := None; ex_authn_sel := None; ex_exts := None; ex_uvi := None; ex_loc := (Some {| co_latitude := (VInt 1%Z); co_longitude := (VInt 2%Z); co_altitude := (VInt 3%Z); co_accuracy := (VFloat 4616189618054758400%N); co_altitude_accuracy := (VFloat 4617315517961601024%N); co_heading := (VFloat 4618441417868443648%N); co_speed := (VFloat 4619567317775286272%N) |}); ex_uvm := None; ex_biometric_perf_bounds := (Some true) |};
    Ok {| ex_appid := (Some true); ex_tx_auth_simple := None; ex_tx_auth_generic := None; ex_authn_sel := None; ex_exts := None; ex_uvi := None; ex_loc := None; ex_uvm := (Some [[1%Z; 2%Z; 3%Z]; [4%Z; 5%Z; 6%Z]]); ex_biometric_perf_bounds := (Some true) |};
    Ok {| ex_appid := None; ex_tx_auth_simple := (Some (lit "auth")); ex_tx_auth_generic := (Some (blit "auth")); ex_authn_sel := (Some true); ex_exts := None; ex_uvi := None; ex_loc := None; ex_uvm := None; ex_biometric_perf_bounds := None |};
    Ok {| ex_appid := None; ex_tx_auth_simple := (Some (lit "auth")); ex_tx_auth_generic := (Some (blit "auth")); ex_authn_sel := None; ex_exts := (Some [(lit "appid"); (lit "uvi")]); ex_uvi := None; ex_loc := None; ex_uvm := None; ex_biometric_perf_bounds := None |};
    Ok {| ex_appid := None; ex_tx_auth_simple := (Some (lit "auth")); ex_tx_auth_generic := (Some (blit "auth")); ex_authn_sel := None; ex_exts := None; ex_uvi := (Some (blit "uvi")); ex_loc := None; ex_uvm := None; ex_biometric_perf_bounds := None |};
    Ok {| ex_appid := None; ex_tx_auth_simple := (Some (lit "auth")); ex_tx_auth_generic := (Some (blit "auth")); ex_authn_sel := None; ex_exts := None; ex_uvi := None; ex_loc := (Some {| co_latitude := (VInt 1%Z); co_longitude := (VInt 2%Z); co_altitude := (VInt 3%Z); co_accuracy := (VFloat 4616189618054758400%N); co_altitude_accuracy := (VFloat 4617315517961601024%N); co_heading := (VFloat 4618441417868443648%N); co_speed := (VFloat 4619567317775286272%N) |}); ex_uvm := None; ex_biometric_perf_bounds := None |};
    Ok {| ex_appid := None; ex_tx_auth_simple := (Some (lit "auth")); ex_tx_auth_generic := (Some (blit "auth")); ex_authn_sel := None; ex_exts := None; ex_uvi := None; ex_loc := None; ex_uvm := (Some [[1%Z; 2%Z; 3%Z]; [4%Z; 5%Z; 6%Z]]); ex_biometric_perf_bounds := None |};
    Ok {| ex_appid := None; ex_tx_auth_simple := (Some (lit "auth")); ex_tx_auth_generic := (Some (blit "auth")); ex_authn_sel := None; ex_exts := None; ex_uvi := None; ex_loc := None; ex_uvm := None; ex_biometric_perf_bounds := (Some true) |};
    Ok {| ex_appid := None; ex_tx_auth_simple := (Some (lit "auth")); ex_tx_auth_generic := None; ex_authn_sel := (Some true); ex_exts := (Some [(lit "appid"); (lit "uvi")]); ex_uvi := None; ex_loc := None; ex_uvm := None; ex_biometric_perf_bounds := None |};
    Ok {| ex_appid := None; ex_tx_auth_simple := (Some (lit "auth")); ex_tx_auth_generic := None; ex_authn_sel := (Some true); ex_exts := None; ex_uvi := (Some (blit "uvi")); ex_loc := None; ex_uvm := None; ex_biometric_perf_bounds := None |};
    Ok {| ex_appid := None; ex_tx_auth_simple := (Some (lit "auth")); ex_tx_auth_generic := None; ex_authn_sel := (Some true); ex_exts := None; ex_uvi := None; ex_loc := (Some {| co_latitude := (VInt 1%Z); co_longitude := (VInt 2%Z); co_altitude := (VInt 3%Z); co_accuracy := (VFloat 4616189618054758400%N); co_altitude_accuracy := (VFloat 4617315517961601024%N); co_heading := (VFloat 4618441417868443648%N); co_speed := (VFloat 4619567317775286272%N) |}); ex_uvm := None; ex_biometric_perf_bounds := None |};
    Ok {| ex_appid := None; ex_tx_auth_simple := (Some (lit "auth")); ex_tx_auth_generic := None; ex_authn_sel := (Some true); ex_exts := None; ex_uvi := None; ex_loc := None; ex_uvm := (Some [[1%Z; 2%Z; 3%Z]; [4%Z; 5%Z; 6%Z]]); ex_biometric_perf_bounds := None |};
    Ok {| ex_appid := None; ex_tx_auth_simple := (Some (lit "auth")); ex_tx_auth_generic := None; ex_authn_sel := (Some true); ex_exts := None; ex_uvi := None; ex_loc := None; ex_uvm := None; ex_biometric_perf_bounds := (Some true) |};
    Ok {| ex_appid := None; ex_tx_auth_simple := (Some (lit "auth")); ex_tx_auth_generic := None; ex_authn_sel := None; ex_exts := (Some [(lit "appid"); (lit "uvi")]); ex_uvi := (Some (blit "uvi")); ex_loc := None; ex_uvm := None; ex_biometric_perf_bounds := None |};
    Ok {| ex_appid := None; ex_tx_auth_simple := (Some (lit "auth")); ex_tx_auth_generic := None; ex_authn_sel := None; ex_exts := (Some [(lit "appid"); (lit "uvi")]); ex_uvi := None; ex_loc := (Some {| co_latitude := (VInt 1%Z); co_longitude := (VInt 2%Z); co_altitude := (VInt 3%Z); co_accuracy := (VFloat 4616189618054758400%N); co_altitude_accuracy := (VFloat 4617315517961601024%N); co_heading := (VFloat 4618441417868443648%N); co_speed := (VFloat 4619567317775286272%N) |}); ex_uvm := None; ex_biometric_perf_bounds := None |};
    Ok {| ex_appid := None; ex_tx_auth_simple := (Some (lit "auth")); ex_tx_auth_generic := None; ex_authn_sel := None; ex_exts := (Some [(lit "appid"); (lit "uvi")]); ex_uvi := None; ex_loc := None; ex_uvm := (Some [[1%Z; 2%Z; 3%Z]; [4%Z; 5%Z; 6%Z]]); ex_biometric_perf_bounds := None |};
    Ok {| ex_appid := None; ex_tx_auth_simple := (Some (lit "auth")); ex_tx_auth_generic := None; ex_authn_sel := None; ex_exts := (Some [(lit "appid"); (lit "uvi")]); ex_uvi := None; ex_loc := None; ex_uvm := None; ex_biometric_perf_bounds := (Some true) |};
    Ok {| ex_appid := None; ex_tx_auth_simple := (Some (lit "auth")); ex_tx_auth_generic := None; ex_authn_sel := None; ex_exts := None; ex_uvi := (Some (blit "uvi")); ex_loc := (Some {| co_latitude := (VInt 1%Z); co_longitude := (VInt 2%Z); co_altitude := (VInt 3%Z); co_accuracy := (VFloat 4616189618054758400%N); co_altitude_accuracy := (VFloat 4617315517961601024%N); co_heading := (VFloat 4618441417868443648%N); co_speed := (VFloat 4619567317775286272%N) |}); ex_uvm := None; ex_biometric_perf_bounds := None |};
    Ok {| ex_appid := None; ex_tx_auth_simple := (Some (lit "auth")); ex_tx_auth_generic := None; ex_authn_sel := None; ex_exts := None; ex_uvi := (Some (blit "uvi")); ex_loc := None; ex_uvm := (Some [[1%Z; 2%Z; 3%Z]; [4%Z; 5%Z; 6%Z]]); ex_biometric_perf_bounds := None |};
    Ok {| ex_appid := None; ex_tx_auth_simple := (Some (lit "auth")); ex_tx_auth_generic := None; ex_authn_sel := None; ex_exts := None; ex_uvi := (Some (blit "uvi")); ex_loc := None; ex_uvm := None; ex_biometric_perf_bounds := (Some true) |};
    Ok {| ex_appid := None; ex_tx_auth_simple := (Some (lit "auth")); ex_tx_auth_generic := None; ex_authn_sel := None; ex_exts := None; ex_uvi := None; ex_loc := (Some {| co_latitude := (VInt 1%Z); co_longitude := (VInt 2%Z); co_altitude := (VInt 3%Z); co_accuracy := (VFloat 4616189618054758400%N); co_altitude_accuracy := (VFloat 4617315517961601024%N); co_heading := (VFloat 4618441417868443648%N); co_speed := (VFloat 4619567317775286272%N) |}); ex_uvm := (Some [[1%Z; 2%Z; 3%Z]; [4%Z; 5%Z; 6%Z]]); ex_biometric_perf_bounds := None |};
    Ok {| ex_appid := None; ex_tx_auth_simple := (Some (lit "auth")); ex_tx_auth_generic := None; ex_authn_sel := None; ex_exts := None; ex_uvi := None; ex_loc := (Some {| co_latitude := (VInt 1%Z); co_longitude := (VInt 2%Z); co_altitude := (VInt 3%Z); co_accuracy := (VFloat 4616189618054758400%N); co_altitude_accuracy := (VFloat 4617315517961601024%N); co_heading := (VFloat 4618441417868443648%N); co_speed := (VFloat 4619567317775286272%N) |}); ex_uvm := None; ex_biometric_perf_bounds := (Some true) |};
    Ok {| ex_appid := None; ex_tx_auth_simple := (Some (lit "auth")); ex_tx_auth_generic := None; ex_authn_sel := None; ex_exts := None; ex_uvi := None; ex_loc := None; ex_uvm := (Some [[1%Z; 2%Z; 3%Z]; [4%Z; 5%Z; 6%Z]]); ex_biometric_perf_bounds := (Some true) |};
    Ok {| ex_appid := None; ex_tx_auth_simple := None; ex_tx_auth_generic := (Some (blit "auth")); ex_authn_sel := (Some true); ex_exts := (Some [(lit "appid"); (lit "uvi")]); ex_uvi := None; ex_loc := None; ex_uvm := None; ex_biometric_perf_bounds := None |};
    Ok {| ex_appid := None; ex_tx_auth_simple := None; ex_tx_auth_generic := (Some (blit "auth")); ex_authn_sel := (Some true); ex_exts := None; ex_uvi := (Some (blit "uvi")); ex_loc := None; ex_uvm := None; ex_biometric_perf_bounds := None |};
    Ok {| ex_appid := None; ex_tx_auth_simple := None; ex_tx_auth_generic := (Some (blit "auth")); ex_authn_sel := (Some true); ex_exts := None; ex_uvi := None; ex_loc := (Some {| co_latitude := (VInt 1%Z); co_longitude := (VInt 2%Z); co_altitude := (VInt 3%Z); co_accuracy := (VFloat 4616189618054758400%N); co_altitude_accuracy := (VFloat 4617315517961601024%N); co_heading := (VFloat 4618441417868443648%N); co_speed := (VFloat 4619567317775286272%N) |}); ex_uvm := None; ex_biometric_perf_bounds := None |};
    Ok {| ex_appid := None; ex_tx_auth_simple := None; ex_tx_auth_generic := (Some (blit "auth")); ex_authn_sel := (Some true); ex_exts := None; ex_uvi := None; ex_loc := None; ex_uvm := (Some [[1%Z; 2%Z; 3%Z]; [4%Z; 5%Z; 6%Z]]); ex_biometric_perf_bounds := None |};
    Ok {| ex_appid := None; ex_tx_auth_simple := None; ex_tx_auth_generic := (Some (blit "auth")); ex_authn_sel := (Some true); ex_exts := None; ex_uvi := None; ex_loc := None; ex_uvm := None; ex_biometric_perf_bounds := (Some true) |};
    Ok {| ex_appid := None; ex_tx_auth_simple := None; ex_tx_auth_generic := (Some (blit "auth")); ex_authn_sel := None; ex_exts := (Some [(lit "appid"); (lit "uvi")]); ex_uvi := (Some (blit "uvi")); ex_loc := None; ex_uvm := None; ex_biometric_perf_bounds := None |};
    Ok {| ex_appid := None; ex_tx_auth_simple := None; ex_tx_auth_generic := (Some (blit "auth")); ex_authn_sel := None; ex_exts := (Some [(lit "appid"); (lit "uvi")]); ex_uvi := None; ex_loc := (Some {| co_latitude := (VInt 1%Z); co_longitude := (VInt 2%Z); co_altitude := (VInt 3%Z); co_accuracy := (VFloat 4616189618054758400%N); co_altitude_accuracy := (VFloat 4617315517961601024%N); co_heading := (VFloat 4618441417868443648%N); co_speed := (VFloat 4619567317775286272%N) |}); ex_uvm := None; ex_biometric_perf_bounds := None |};
    Ok {| ex_appid := None; ex_tx_auth_simple := None; ex_tx_auth_generic := (Some (blit "auth")); ex_authn_sel := None; ex_exts := (Some [(lit "appid"); (lit "uvi")]); ex_uvi := None; ex_loc := None; ex_uvm := (Some [[1%Z; 2%Z; 3%Z]; [4%Z; 5%Z; 6%Z]]); ex_biometric_perf_bounds := None |};
    Ok {| ex_appid := None; ex_tx_auth_simple := None; ex_tx_auth_generic := (Some (blit "auth")); ex_authn_sel := None; ex_exts := (Some [(lit "appid"); (lit "uvi")]); ex_uvi := None; ex_loc := None; ex_uvm := None; ex_biometric_perf_bounds := (Some true) |};
    Ok {| ex_appid := None; ex_tx_auth_simple := None; ex_tx_auth_generic := (Some (blit "auth")); ex_authn_sel := None; ex_exts := None; ex_uvi := (Some (blit "uvi")); ex_loc := (Some {| co_latitude := (VInt 1%Z); co_longitude := (VInt 2%Z); co_altitude := (VInt 3%Z); co_accuracy := (VFloat 4616189618054758400%N); co_altitude_accuracy := (VFloat 4617315517961601024%N); co_heading := (VFloat 4618441417868443648%N); co_speed := (VFloat 4619567317775286272%N) |}); ex_uvm := None; ex_biometric_perf_bounds := None |};
    Ok {| ex_appid := None; ex_tx_auth_simple := None; ex_tx_auth_generic := (Some (blit "auth")); ex_authn_sel := None; ex_exts := None; ex_uvi := (Some (blit "uvi")); ex_loc := None; ex_uvm := (Some [[1%Z; 2%Z; 3%Z]; [4%Z; 5%Z; 6%Z]]); ex_biometric_perf_bounds := None |};
    Ok {| ex_appid := None; ex_tx_auth_simple := None; ex_tx_auth_generic := (Some (blit "auth")); ex_authn_sel := None; ex_exts := None; ex_uvi := (Some (blit "uvi")); ex_loc := None; ex_uvm := None; ex_biometric_perf_bounds := (Some true) |};
    Ok {| ex_appid := None; ex_tx_auth_simple := None; ex_tx_auth_generic := (Some (blit "auth")); ex_authn_sel := None; ex_exts := None; ex_uvi := None; ex_loc := (Some {| co_latitude := (VInt 1%Z); co_longitude := (VInt 2%Z); co_altitude := (VInt 3%Z); co_accuracy := (VFloat 4616189618054758400%N); co_altitude_accuracy := (VFloat 4617315517961601024%N); co_heading := (VFloat 4618441417868443648%N); co_speed := (VFloat 4619567317775286272%N) |}); ex_uvm := (Some [[1%Z; 2%Z; 3%Z]; [4%Z; 5%Z; 6%Z]]); ex_biometric_perf_bounds := None |};
    Ok {| ex_appid := None; ex_tx_auth_simple := None; ex_tx_auth_generic := (Some (blit "auth")); ex_authn_sel := None; ex_exts := None; ex_uvi := None; ex_loc := (Some {| co_latitude := (VInt 1%Z); co_longitude := (VInt 2%Z); co_altitude := (VInt 3%Z); co_accuracy := (VFloat 4616189618054758400%N); co_altitude_accuracy := (VFloat 4617315517961601024%N); co_heading := (VFloat 4618441417868443648%N); co_speed := (VFloat 4619567317775286272%N) |}); ex_uvm := None; ex_biometric_perf_bounds := (Some true) |};
    Ok {| ex_appid := None; ex_tx_auth_simple := None; ex_tx_auth_generic := (Some (blit "auth")); ex_authn_sel := None; ex_exts := None; ex_uvi := None; ex_loc := None; ex_uvm := (Some [[1%Z; 2%Z; 3%Z]; [4%Z; 5%Z; 6%Z]]); ex_biometric_perf_bounds := (Some true) |};
    Ok {| ex_appid := None; ex_tx_auth_simple := None; ex_tx_auth_generic := None; ex_authn_sel := (Some true); ex_exts := (Some [(lit "appid"); (lit "uvi")]); ex_uvi := (Some (blit "uvi")); ex_loc := None; ex_uvm := None; ex_biometric_perf_bounds := None |};
    Ok {| ex_appid := None; ex_tx_auth_simple := None; ex_tx_auth_generic := None; ex_authn_sel := (Some true); ex_exts := (Some [(lit "appid"); (lit "uvi")]); ex_uvi := None; ex_loc := (Some {| co_latitude := (VInt 1%Z); co_longitude := (VInt 2%Z); co_altitude := (VInt 3%Z); co_accuracy := (VFloat 4616189618054758400%N); co_altitude_accuracy := (VFloat 4617315517961601024%N); co_heading := (VFloat 4618441417868443648%N); co_speed := (VFloat 4619567317775286272%N) |}); ex_uvm := None; ex_biometric_perf_bounds := None |};
    Ok {| ex_appid := None; ex_tx_auth_simple := None; ex_tx_auth_generic := None; ex_authn_sel := (Some true); ex_exts := (Some [(lit "appid"); (lit "uvi")]); ex_uvi := None; ex_loc := None; ex_uvm := (Some [[1%Z; 2%Z; 3%Z]; [4%Z; 5%Z; 6%Z]]); ex_biometric_perf_bounds := None |};
    Ok {| ex_appid := None; ex_tx_auth_simple := None; ex_tx_auth_generic := None; ex_authn_sel := (Some true); ex_exts := (Some [(lit "appid"); (lit "uvi")]); ex_uvi := None; ex_loc := None; ex_uvm := None; ex_biometric_perf_bounds := (Some true) |};
    Ok {| ex_appid := None; ex_tx_auth_simple := None; ex_tx_auth_generic := None; ex_authn_sel := (Some true); ex_exts := None; ex_uvi := (Some (blit "uvi")); ex_loc := (Some {| co_latitude := (VInt 1%Z); co_longitude := (VInt 2%Z); co_altitude := (VInt 3%Z); co_accuracy := (VFloat 4616189618054758400%N); co_altitude_accuracy := (VFloat 4617315517961601024%N); co_heading := (VFloat 4618441417868443648%N); co_speed := (VFloat 4619567317775286272%N) |}); ex_uvm := None; ex_biometric_perf_bounds := None |};
    Ok {| ex_appid := None; ex_tx_auth_simple := None; ex_tx_auth_generic := None; ex_authn_sel := (Some true); ex_exts := None; ex_uvi := (Some (blit "uvi")); ex_loc := None; ex_uvm := (Some [[1%Z; 2%Z; 3%Z]; [4%Z; 5%Z; 6%Z]]); ex_biometric_perf_bounds := None |};
    Ok {| ex_appid := None; ex_tx_auth_simple := None; ex_tx_auth_generic := None; ex_authn_sel := (Some true); ex_exts := None; ex_uvi := (Some (blit "uvi")); ex_loc := None; ex_uvm := None; ex_biometric_perf_bounds := (Some true) |};
    Ok {| ex_appid := None; ex_tx_auth_simple := None; ex_tx_auth_generic := None; ex_authn_sel := (Some true); ex_exts := None; ex_uvi := None; ex_loc := (Some {| co_latitude := (VInt 1%Z); co_longitude := (VInt 2%Z); co_altitude := (VInt 3%Z); co_accuracy := (VFloat 4616189618054758400%N); co_altitude_accuracy := (VFloat 4617315517961601024%N); co_heading := (VFloat 4618441417868443648%N); co_speed := (VFloat 4619567317775286272%N) |}); ex_uvm := (Some [[1%Z; 2%Z; 3%Z]; [4%Z; 5%Z; 6%Z]]); ex_biometric_perf_bounds := None |};
    Ok {| ex_appid := None; ex_tx_auth_simple := None; ex_tx_auth_generic := None; ex_authn_sel := (Some true); ex_exts := None; ex_uvi := None; ex_loc := (Some {| co_latitude := (VInt 1%Z); co_longitude := (VInt 2%Z); co_altitude := (VInt 3%Z); co_accuracy := (VFloat 4616189618054758400%N); co_altitude_accuracy := (VFloat 4617315517961601024%N); co_heading := (VFloat 4618441417868443648%N); co_speed := (VFloat 4619567317775286272%N) |}); ex_uvm := None; ex_biometric_perf_bounds := (Some true) |};
    Ok {| ex_appid := None; ex_tx_auth_simple := None; ex_tx_auth_generic := None; ex_authn_sel := (Some true); ex_exts := None; ex_uvi := None; ex_loc := None; ex_uvm := (Some [[1%Z; 2%Z; 3%Z]; [4%Z; 5%Z; 6%Z]]); ex_biometric_perf_bounds := (Some true) |};
    Ok {| ex_appid := None; ex_tx_auth_simple := None; ex_tx_auth_generic := None; ex_authn_sel := None; ex_exts := (Some [(lit "appid"); (lit "uvi")]); ex_uvi := (Some (blit "uvi")); ex_loc := (Some {| co_latitude := (VInt 1%Z); co_longitude := (VInt 2%Z); co_altitude := (VInt 3%Z); co_accuracy := (VFloat 4616189618054758400%N); co_altitude_accuracy := (VFloat 4617315517961601024%N); co_heading := (VFloat 4618441417868443648%N); co_speed := (VFloat 4619567317775286272%N) |}); ex_uvm := None; ex_biometric_perf_bounds := None |};
    Ok {| ex_appid := None; ex_tx_auth_simple := None; ex_tx_auth_generic := None; ex_authn_sel := None; ex_exts := (Some [(lit "appid"); (lit "uvi")]); ex_uvi := (Some (blit "uvi")); ex_loc := None; ex_uvm := (Some [[1%Z; 2%Z; 3%Z]; [4%Z; 5%Z; 6%Z]]); ex_biometric_perf_bounds := None |};
    Ok {| ex_appid := None; ex_tx_auth_simple := None; ex_tx_auth_generic := None; ex_authn_sel := None; ex_exts := (Some [(lit "appid"); (lit "uvi")]); ex_uvi := (Some (blit "uvi")); ex_loc := None; ex_uvm := None; ex_biometric_perf_bounds := (Some true) |};
    Ok {| ex_appid := None; ex_tx_auth_simple := None; ex_tx_auth_generic := None; ex_authn_sel := None; ex_exts := (Some [(lit "appid"); (lit "uvi")]); ex_uvi := None; ex_loc := (Some {| co_latitude := (VInt 1%Z); co_longitude := (VInt 2%Z); co_altitude := (VInt 3%Z); co_accuracy := (VFloat 4616189618054758400%N); co_altitude_accuracy := (VFloat 4617315517961601024%N); co_heading := (VFloat 4618441417868443648%N); co_speed := (VFloat 4619567317775286272%N) |}); ex_uvm := (Some [[1%Z; 2%Z; 3%Z]; [4%Z; 5%Z; 6%Z]]); ex_biometric_perf_bounds := None |};
    Ok {| ex_appid := None; ex_tx_auth_simple := None; ex_tx_auth_generic := None; ex_authn_sel := None; ex_exts := (Some [(lit "appid"); (lit "uvi")]); ex_uvi := None; ex_loc := (Some {| co_latitude := (VInt 1%Z); co_longitude := (VInt 2%Z); co_altitude := (VInt 3%Z); co_accuracy := (VFloat 4616189618054758400%N); co_altitude_accuracy := (VFloat 4617315517961601024%N); co_heading := (VFloat 4618441417868443648%N); co_speed := (VFloat 4619567317775286272%N) |}); ex_uvm := None; ex_biometric_perf_bounds := (Some true) |};
    Ok {| ex_appid := None; ex_tx_auth_simple := None; ex_tx_auth_generic := None; ex_authn_sel := None; ex_exts := (Some [(lit "appid"); (lit "uvi")]); ex_uvi := None; ex_loc := None; ex_uvm := (Some [[1%Z; 2%Z; 3%Z]; [4%Z; 5%Z; 6%Z]]); ex_biometric_perf_bounds := (Some true) |};
    Ok {| ex_appid := None; ex_tx_auth_simple := None; ex_tx_auth_generic := None; ex_authn_sel := None; ex_exts := None; ex_uvi := (Some (blit "uvi")); ex_loc := (Some {| co_latitude := (VInt 1%Z); co_longitude := (VInt 2%Z); co_altitude := (VInt 3%Z); co_accuracy := (VFloat 4616189618054758400%N); co_altitude_accuracy := (VFloat 4617315517961601024%N); co_heading := (VFloat 4618441417868443648%N); co_speed := (VFloat 4619567317775286272%N) |}); ex_uvm := (Some [[1%Z; 2%Z; 3%Z]; [4%Z; 5%Z; 6%Z]]); ex_biometric_perf_bounds := None |};
    Ok {| ex_appid := None; ex_tx_auth_simple := None; ex_tx_auth_generic := None; ex_authn_sel := None; ex_exts := None; ex_uvi := (Some (blit "uvi")); ex_loc := (Some {| co_latitude := (VInt 1%Z); co_longitude := (VInt 2%Z); co_altitude := (VInt 3%Z); co_accuracy := (VFloat 4616189618054758400%N); co_altitude_accuracy := (VFloat 4617315517961601024%N); co_heading := (VFloat 4618441417868443648%N); co_speed := (VFloat 4619567317775286272%N) |}); ex_uvm := None; ex_biometric_perf_bounds := (Some true) |};
    Ok {| ex_appid := None; ex_tx_auth_simple := None; ex_tx_auth_generic := None; ex_authn_sel := None; ex_exts := None; ex_uvi := (Some (blit "uvi")); ex_loc := None; ex_uvm := (Some [[1%Z; 2%Z; 3%Z]; [4%Z; 5%Z; 6%Z]]); ex_biometric_perf_bounds := (Some true) |};
    Ok {| ex_appid := None; ex_tx_auth_simple := None; ex_tx_auth_generic := None; ex_authn_sel := None; ex_exts := None; ex_uvi := None; ex_loc := (Some {| co_latitude := (VInt 1%Z); co_longitude := (VInt 2%Z); co_altitude := (VInt 3%Z); co_accuracy := (VFloat 4616189618054758400%N); co_altitude_accuracy := (VFloat 4617315517961601024%N); co_heading := (VFloat 4618441417868443648%N); co_speed := (VFloat 4619567317775286272%N) |}); ex_uvm := (Some [[1%Z; 2%Z; 3%Z]; [4%Z; 5%Z; 6%Z]]); ex_biometric_perf_bounds := (Some true) |} ].
Proof. vm_compute. reflexivity. Qed.

(** tests/test_parsers.py:979-1027 *)
Example test_parse_extensions_error :
  forallb (raises [ParserError])
  [ parse_extensions ex_world [((VStr (lit "invalid")), (VInt 1%Z))];
    parse_extensions ex_world [((VStr (lit "appid")), (VStr (lit "invalid")))];
    parse_extensions ex_world [((VStr (lit "appid")), (VBytes (blit "invalid")))];
    parse_extensions ex_world [((VStr (lit "txAuthSimple")), (VBytes (blit "auth")))];
    parse_extensions ex_world [((VStr (lit "txAuthSimple")), (VInt 1%Z))];
    parse_extensions ex_world [((VStr (lit "txAuthGeneric")), (VStr (lit "auth")))];
    parse_extensions ex_world [((VStr (lit "txAuthGeneric")), (VFloat 4607182418800017408%N))];
    parse_extensions ex_world [((VStr (lit "authnSel")), (VStr (lit "invalid")))];
    parse_extensions ex_world [((VStr (lit "authnSel")), (VInt 1%Z))];
    parse_extensions ex_world [((VStr (lit "exts")), (VList [(VStr (lit "appid")); (VBytes (blit "uvi"))]))];
    parse_extensions ex_world [((VStr (lit "exts")), (VList [(VInt 1%Z); (VStr (lit "uvi"))]))];
    parse_extensions ex_world [((VStr (lit "exts")), (VStr (lit "invalid")))];
    parse_extensions ex_world [((VStr (lit "uvi")), (VStr (lit "uvi")))];
    parse_extensions ex_world [((VStr (lit "uvi")), (VInt 1%Z))];
    parse_extensions ex_world [((VStr (lit "loc")), (VDict [((VStr (lit "latitude")), (VStr (lit "invalid"))); ((VStr (lit "longitude")), (VInt 2%Z)); ((VStr (lit "altitude")), (VInt 3%Z)); ((VStr (lit "accuracy")), (VFloat 4616189618054758400%N)); ((VStr (lit "altitudeAccuracy")), (VFloat 4617315517961601024%N)); ((VStr (lit "heading")), (VFloat 4618441417868443648%N)); ((VStr (lit "speed")), (VFloat 4619567317775286272%N))]))];
    parse_extensions ex_world [((VStr (lit "loc")), (VDict [((VStr (lit "latitude")), (VInt 1%Z)); ((VStr (lit "longitude")), (VInt 2%Z)); ((VStr (lit "altitude")), (VInt 3%Z)); ((VStr (lit "accuracy")), (VBytes (blit "invalid"))); ((VStr (lit "altitudeAccuracy")), (VFloat 4617315517961601024%N)); ((VStr (lit "heading")), (VFloat 4618441417868443648%N)); ((VStr (lit "speed")), (VFloat 4619567317775286272%N))]))];
    parse_extensions ex_world [((VStr (lit "uvm")), (VList [(VList [(VStr (lit "invalid")); (VInt 2%Z); (VInt 3%Z)]); (VList [(VInt 4%Z); (VInt 5%Z); (VInt 6%Z)])]))];
    parse_extensions ex_world [((VStr (lit "uvm")), (VList [(VList [(VInt 1%Z); (VFloat 4611686018427387904%N); (VInt 3%Z)]); (VList [(VInt 4%Z); (VInt 5%Z); (VInt 6%Z)])]))];
    parse_extensions ex_world [((VStr (lit "uvm")), (VStr (lit "invalid")))];
    parse_extensions ex_world [((VStr (lit "biometricPerfBounds")), (VStr (lit "invalid")))];
    parse_extensions ex_world [((VStr (lit "biometricPerfBounds")), (VInt 1%Z))] ] = true.
Proof. vm_compute. reflexivity. Qed.

(** tests/test_parsers.py:1030-1037 *)
Example test__parse_attestation_statement_alg_success :
  [ parse_stmt_alg ex_world [((VStr (lit "alg")), (VStr (lit "ES256")))];
    parse_stmt_alg ex_world [((VStr (lit "alg")), (VStr (lit "ES384")))];
    parse_stmt_alg ex_world [((VStr (lit "alg")), (VStr (lit "ES512")))];
    parse_stmt_alg ex_world [((VStr (lit "alg")), (VStr (lit "EdDSA")))];
    parse_stmt_alg ex_world [((VStr (lit "alg")), (VInt (-7)%Z))];
    parse_stmt_alg ex_world [((VStr (lit "alg")), (VInt (-35)%Z))];
    parse_stmt_alg ex_world [((VStr (lit "alg")), (VInt (-36)%Z))];
    parse_stmt_alg ex_world [((VStr (lit "alg")), (VInt (-8)%Z))] ]
  = [ Ok (FName, ES256);
    Ok (FName, ES384);
    Ok (FName, ES512);
    Ok (FName, EDDSA);
    Ok (FValue, ES256);
    Ok (FValue, ES384);
    Ok (FValue, ES512);
    Ok (FValue, EDDSA) ].
Proof. vm_compute. reflexivity. Qed.

(** tests/test_parsers.py:1040-1051 *)
Example test__parse_attestation_statement_alg_error :
  forallb (raises [ParserError])
  [ parse_stmt_alg ex_world [((VStr (lit "alg")), (VStr (lit "invalid")))];
    parse_stmt_alg ex_world [((VStr (lit "alg")), (VInt (-1)%Z))];
    parse_stmt_alg ex_world [] ] = true.
Proof. vm_compute. reflexivity. Qed.

(** tests/test_parsers.py:1054-1063 *)
Example test__parse_attestation_statement_x5c_success :
  [ parse_x5c [((VStr (lit "x5c")), (VList [(VBytes (blit "x")); (VBytes (blit "y"))]))];
    parse_x5c [((VStr (lit "x5c")), (VTuple [(VBytes (blit "x")); (VBytes (blit "y"))]))] ]
  = [ Ok [(blit "x"); (blit "y")];
    Ok [(blit "x"); (blit "y")] ].
Proof. vm_compute. reflexivity. Qed.

(** tests/test_parsers.py:1066-1089 *)
Example test__parse_attestation_statement_x5c_error :
  forallb (raises [ParserError])
  [ parse_x5c [((VStr (lit "x5c")), (VStr (lit "invalid")))];
    parse_x5c [((VStr (lit "x5c")), (VInt (-1)%Z))];
    parse_x5c [((VStr (lit "x5c")), (VList [(VInt 1%Z)]))];
    parse_x5c [((VStr (lit "x5c")), (VList [(VStr (lit "x"))]))];
    parse_x5c [((VStr (lit "x5c")), (VTuple [(VInt 1%Z)]))];
    parse_x5c [((VStr (lit "x5c")), (VTuple [(VStr (lit "x"))]))];
    parse_x5c [] ] = true.
Proof. vm_compute. reflexivity. Qed.

(** tests/test_parsers.py:1092-1117 *)
Example test_parse_packed_attestation_statement_success :
  [ parse_packed_attestation_statement ex_world [((VStr (lit "alg")), (VInt (-7)%Z)); ((VStr (lit "sig")), (VBytes (blit "signature")))];
    parse_packed_attestation_statement ex_world [((VStr (lit "alg")), (VInt (-7)%Z)); ((VStr (lit "sig")), (VBytes (blit "signature"))); ((VStr (lit "x5c")), (VList [(VBytes (blit "x")); (VBytes (blit "y"))]))];
    parse_packed_attestation_statement ex_world [((VStr (lit "alg")), (VInt (-7)%Z)); ((VStr (lit "sig")), (VBytes (blit "signature"))); ((VStr (lit "ecdaaKeyId")), (VBytes (blit "key-id")))] ]
  = [ Ok (S_Packed (FValue, ES256) (blit "signature"));
    Ok (S_PackedX509 (FValue, ES256) (blit "signature") [(blit "x"); (blit "y")]);
    Ok (S_PackedECDAA (FValue, ES256) (blit "signature") (blit "key-id")) ].
Proof. vm_compute. reflexivity. Qed.

(** tests/test_parsers.py:1120-1133 *)
Example test_parse_packed_attestation_statement_error :
  forallb (raises [ParserError])
  [ parse_packed_attestation_statement ex_world [];
    parse_packed_attestation_statement ex_world [((VStr (lit "alg")), (VInt (-1)%Z)); ((VStr (lit "sig")), (VBytes (blit "signature")))];
    parse_packed_attestation_statement ex_world [((VStr (lit "alg")), (VInt (-7)%Z)); ((VStr (lit "sig")), (VStr (lit "signature")))];
    parse_packed_attestation_statement ex_world [((VStr (lit "invalid")), (VStr (lit "data"))); ((VStr (lit "alg")), (VInt (-7)%Z)); ((VStr (lit "sig")), (VBytes (blit "signature")))] ] = true.
Proof. vm_compute. reflexivity. Qed.

(** tests/test_parsers.py:1136-1179 *)
Example test_parse_tpm_attestation_statement_success :
  [ parse_tpm_attestation_statement ex_world [((VStr (lit "alg")), (VInt (-7)%Z)); ((VStr (lit "sig")), (VBytes (blit "signature"))); ((VStr (lit "ver")), (VStr (lit "1"))); ((VStr (lit "certInfo")), (VBytes (blit "cert-info"))); ((VStr (lit "pubArea")), (VBytes (blit "pub-area")))];
    parse_tpm_attestation_statement ex_world [((VStr (lit "alg")), (VInt (-7)%Z)); ((VStr (lit "sig")), (VBytes (blit "signature"))); ((VStr (lit "ver")), (VStr (lit "1"))); ((VStr (lit "certInfo")), (VBytes (blit "cert-info"))); ((VStr (lit "pubArea")), (VBytes (blit "pub-area"))); ((VStr (lit "x5c")), (VList [(VBytes (blit "x")); (VBytes (blit "y"))]))];
    parse_tpm_attestation_statement ex_world [((VStr (lit "alg")), (VInt (-7)%Z)); ((VStr (lit "sig")), (VBytes (blit "signature"))); ((VStr (lit "ver")), (VStr (lit "1"))); ((VStr (lit "certInfo")), (VBytes (blit "cert-info"))); ((VStr (lit "pubArea")), (VBytes (blit "pub-area"))); ((VStr (lit "ecdaaKeyId")), (VBytes (blit "key-id")))] ]
  = [ Ok (S_TPM (FValue, ES256) (blit "signature") (lit "1") (blit "cert-info") (blit "pub-area"));
    Ok (S_TPMX509 (FValue, ES256) (blit "signature") (lit "1") (blit "cert-info") (blit "pub-area") [(blit "x"); (blit "y")]);
    Ok (S_TPMECDAA (FValue, ES256) (blit "signature") (lit "1") (blit "cert-info") (blit "pub-area") (blit "key-id")) ].
Proof. vm_compute. reflexivity. Qed.

(** tests/test_parsers.py:1182-1238 *)
Example test_parse_tpm_attestation_statement_error :
  forallb (raises [ParserError])
  [ parse_tpm_attestation_statement ex_world [];
    parse_tpm_attestation_statement ex_world [((VStr (lit "alg")), (VInt (-1)%Z)); ((VStr (lit "sig")), (VBytes (blit "signature"))); ((VStr (lit "ver")), (VStr (lit "1"))); ((VStr (lit "certInfo")), (VBytes (blit "cert-info"))); ((VStr (lit "pubArea")), (VBytes (blit "pub-area")))];
    parse_tpm_attestation_statement ex_world [((VStr (lit "alg")), (VInt (-7)%Z)); ((VStr (lit "sig")), (VStr (lit "signature"))); ((VStr (lit "ver")), (VStr (lit "1"))); ((VStr (lit "certInfo")), (VBytes (blit "cert-info"))); ((VStr (lit "pubArea")), (VBytes (blit "pub-area")))];
    parse_tpm_attestation_statement ex_world [((VStr (lit "alg")), (VInt (-7)%Z)); ((VStr (lit "sig")), (VStr (lit "signature"))); ((VStr (lit "ver")), (VBytes (blit "1"))); ((VStr (lit "certInfo")), (VBytes (blit "cert-info"))); ((VStr (lit "pubArea")), (VBytes (blit "pub-area")))];
    parse_tpm_attestation_statement ex_world [((VStr (lit "alg")), (VInt (-7)%Z)); ((VStr (lit "sig")), (VStr (lit "signature"))); ((VStr (lit "ver")), (VStr (lit "1"))); ((VStr (lit "certInfo")), (VStr (lit "cert-info"))); ((VStr (lit "pubArea")), (VBytes (blit "pub-area")))];
    parse_tpm_attestation_statement ex_world [((VStr (lit "alg")), (VInt (-7)%Z)); ((VStr (lit "sig")), (VStr (lit "signature"))); ((VStr (lit "ver")), (VStr (lit "1"))); ((VStr (lit "certInfo")), (VBytes (blit "cert-info"))); ((VStr (lit "pubArea")), (VStr (lit "pub-area")))];
    parse_tpm_attestation_statement ex_world [((VStr (lit "invalid")), (VStr (lit "data"))); ((VStr (lit "alg")), (VInt (-7)%Z)); ((VStr (lit "sig")), (VBytes (blit "signature"))); ((VStr (lit "ver")), (VStr (lit "1"))); ((VStr (lit "certInfo")), (VBytes (blit "cert-info"))); ((VStr (lit "pubArea")), (VBytes (blit "pub-area")))];
    parse_tpm_attestation_statement ex_world [((VStr (lit "invalid")), (VStr (lit "data"))); ((VStr (lit "alg")), (VInt (-7)%Z)); ((VStr (lit "sig")), (VBytes (blit "signature"))); ((VStr (lit "ver")), (VStr (lit "1"))); ((VStr (lit "certInfo")), (VBytes (blit "cert-info"))); ((VStr (lit "pubArea")), (VBytes (blit "pub-area"))); ((VStr (lit "x5c")), (VList [(VBytes (blit "x")); (VBytes (blit "y"))]))];
    parse_tpm_attestation_statement ex_world [((VStr (lit "invalid")), (VStr (lit "data"))); ((VStr (lit "alg")), (VInt (-7)%Z)); ((VStr (lit "sig")), (VBytes (blit "signature"))); ((VStr (lit "ver")), (VStr (lit "1"))); ((VStr (lit "certInfo")), (VBytes (blit "cert-info"))); ((VStr (lit "pubArea")), (VBytes (blit "pub-area"))); ((VStr (lit "ecdaaKeyId")), (VBytes (blit "key-id")))] ] = true.
Proof. vm_compute. reflexivity. Qed.

(** tests/test_parsers.py:1241-1261 *)
Example test_parse_android_key_attestation_statement_success :
  [ parse_android_key_attestation_statement ex_world [((VStr (lit "alg")), (VInt (-7)%Z)); ((VStr (lit "sig")), (VBytes (blit "signature"))); ((VStr (lit "x5c")), (VList [(VBytes (blit "x")); (VBytes (blit "y"))]))];
    parse_android_key_attestation_statement ex_world [((VStr (lit "alg")), (VInt (-7)%Z)); ((VStr (lit "sig")), (VBytes (blit "signature"))); ((VStr (lit "x5c")), (VList [(VBytes (blit "x")); (VBytes (blit "y"))]))] ]
  = [ Ok (S_AndroidKey (Some (FValue, ES256)) (Some (blit "signature")) [(blit "x"); (blit "y")]);
    Ok (S_AndroidKey (Some (FValue, ES256)) (Some (blit "signature")) [(blit "x"); (blit "y")]) ].
Proof. vm_compute. reflexivity. Qed.

(** tests/test_parsers.py:1264-1290 *)
Example test_parse_android_key_attestation_statement_error :
  forallb (raises [ParserError])
  [ parse_android_key_attestation_statement ex_world [];
    parse_android_key_attestation_statement ex_world [((VStr (lit "alg")), (VInt (-1)%Z)); ((VStr (lit "sig")), (VBytes (blit "signature"))); ((VStr (lit "x5c")), (VList [(VBytes (blit "x")); (VBytes (blit "y"))]))];
    parse_android_key_attestation_statement ex_world [((VStr (lit "alg")), (VInt (-7)%Z)); ((VStr (lit "sig")), (VStr (lit "signature"))); ((VStr (lit "x5c")), (VList [(VBytes (blit "x")); (VBytes (blit "y"))]))];
    parse_android_key_attestation_statement ex_world [((VStr (lit "alg")), (VInt (-7)%Z)); ((VStr (lit "sig")), (VBytes (blit "signature"))); ((VStr (lit "x5c")), (VBytes (blit "x")))];
    parse_android_key_attestation_statement ex_world [((VStr (lit "invalid")), (VStr (lit "x"))); ((VStr (lit "alg")), (VInt (-7)%Z)); ((VStr (lit "sig")), (VBytes (blit "signature"))); ((VStr (lit "x5c")), (VList [(VBytes (blit "x")); (VBytes (blit "y"))]))] ] = true.
Proof. vm_compute. reflexivity. Qed.

(** tests/test_parsers.py:1293-1299 *)
Example test_parse_android_safetynet_attestation_statement_success :
  [ parse_android_safetynet_attestation_statement ex_world [((VStr (lit "ver")), (VStr (lit "1"))); ((VStr (lit "response")), (VBytes (blit "response")))] ]
  = [ Ok (S_SafetyNet (lit "1") (blit "response")) ].
Proof. vm_compute. reflexivity. Qed.

(** tests/test_parsers.py:1302-1320 *)
Example test_parse_android_safetynet_attestation_statement_error :
  forallb (raises [ParserError])
  [ parse_android_safetynet_attestation_statement ex_world [];
    parse_android_safetynet_attestation_statement ex_world [((VStr (lit "ver")), (VBytes (blit "1"))); ((VStr (lit "response")), (VBytes (blit "response")))];
    parse_android_safetynet_attestation_statement ex_world [((VStr (lit "ver")), (VStr (lit "1"))); ((VStr (lit "response")), (VStr (lit "response")))];
    parse_android_safetynet_attestation_statement ex_world [((VStr (lit "invalid")), (VStr (lit "1"))); ((VStr (lit "ver")), (VStr (lit "1"))); ((VStr (lit "response")), (VBytes (blit "response")))] ] = true.
Proof. vm_compute. reflexivity. Qed.

(** tests/test_parsers.py:1323-1334 *)
Example test_parse_fido_u2f_attestation_statement_success :
  [ parse_fido_u2f_attestation_statement ex_world [((VStr (lit "sig")), (VBytes (blit "signature"))); ((VStr (lit "x5c")), (VList [(VBytes (blit "x"))]))];
    parse_fido_u2f_attestation_statement ex_world [((VStr (lit "sig")), (VBytes (blit "signature"))); ((VStr (lit "x5c")), (VList [(VBytes (blit "x")); (VBytes (blit "y"))]))] ]
  = [ Ok (S_U2F (Some (blit "signature")) [(blit "x")]);
    Ok (S_U2F (Some (blit "signature")) [(blit "x"); (blit "y")]) ].
Proof. vm_compute. reflexivity. Qed.

(** tests/test_parsers.py:1337-1354 *)
Example test_parse_fido_u2f_attestation_statement_error :
  forallb (raises [ParserError])
  [ parse_fido_u2f_attestation_statement ex_world [];
    parse_fido_u2f_attestation_statement ex_world [((VStr (lit "sig")), (VStr (lit "signature"))); ((VStr (lit "x5c")), (VList [(VBytes (blit "x")); (VBytes (blit "y"))]))];
    parse_fido_u2f_attestation_statement ex_world [((VStr (lit "sig")), (VBytes (blit "signature"))); ((VStr (lit "x5c")), (VList [(VStr (lit "x")); (VBytes (blit "y"))]))];
    parse_fido_u2f_attestation_statement ex_world [((VStr (lit "sig")), (VBytes (blit "signature"))); ((VStr (lit "x5c")), (VBytes (blit "x")))] ] = true.
Proof. vm_compute. reflexivity. Qed.

(** tests/test_parsers.py:1357-1361 *)
Example test_parse_none_attestation_statement_success :
  [ parse_none_attestation_statement ex_world [] ]
  = [ Ok (S_None) ].
Proof. vm_compute. reflexivity. Qed.

(** tests/test_parsers.py:1364-1379 *)
Example test_parse_none_attestation_statement_error :
  forallb (raises [ParserError])
  [ parse_none_attestation_statement ex_world [((VStr (lit "alg")), (VInt (-7)%Z)); ((VStr (lit "sig")), (VBytes (blit "signature")))];
    parse_none_attestation_statement ex_world [((VStr (lit "alg")), (VInt (-7)%Z)); ((VStr (lit "sig")), (VBytes (blit "signature"))); ((VStr (lit "x5c")), (VList [(VBytes (blit "x"))]))];
    parse_none_attestation_statement ex_world [((VStr (lit "sig")), (VBytes (blit "signature"))); ((VStr (lit "x5c")), (VList [(VBytes (blit "x"))]))];
    parse_none_attestation_statement ex_world [((VStr (lit "invalid")), (VStr (lit "1")))] ] = true.
Proof. vm_compute. reflexivity. Qed.

(** tests/test_parsers.py:1382-1420 *)
Example test_parse_client_data_success :
  [ parse_client_data ex_world (blit "{""type"": ""type"", ""challenge"": ""challenge"", ""origin"": ""http://example.com""}");
    parse_client_data ex_world (blit "{""type"": ""type"", ""challenge"": ""challenge"", ""origin"": ""http://example.com"", ""tokenBinding"": {""status"": ""supported""}}");
    parse_client_data ex_world (blit "{""type"": ""type"", ""challenge"": ""challenge"", ""origin"": ""http://example.com"", ""tokenBinding"": {""status"": ""present"", ""id"": ""binding-id""}}") ]
  = [ Ok {| cd_type := (lit "type"); cd_challenge := (lit "challenge"); cd_origin := (lit "http://example.com"); cd_token_binding := None |};
    Ok {| cd_type := (lit "type"); cd_challenge := (lit "challenge"); cd_origin := (lit "http://example.com"); cd_token_binding := (Some {| tb_status_ := TB_SUPPORTED; tb_id := VNone |}) |};
    Ok {| cd_type := (lit "type"); cd_challenge := (lit "challenge"); cd_origin := (lit "http://example.com"); cd_token_binding := (Some {| tb_status_ := TB_PRESENT; tb_id := (VStr (lit "binding-id")) |}) |} ].
Proof. vm_compute. reflexivity. Qed.

(** tests/test_parsers.py:1423-1478 *)
Example test_parse_client_data_error :
  forallb (raises [ParserError; TokenBindingError])
  [ parse_client_data ex_world (blit "{""type"": -1, ""challenge"": ""challenge"", ""origin"": ""http://example.com""}");
    parse_client_data ex_world (blit "{""type"": ""type"", ""challenge"": -1, ""origin"": ""http://example.com""}");
    parse_client_data ex_world (blit "{""type"": ""type"", ""challenge"": ""challenge"", ""origin"": -1}");
    parse_client_data ex_world (blit "{""type"": ""type"", ""challenge"": ""challenge"", ""origin"": ""http://example.com"", ""tokenBinding"": ""x""}");
    parse_client_data ex_world (blit "{""type"": ""type"", ""challenge"": ""challenge"", ""origin"": ""http://example.com"", ""tokenBinding"": {}}");
    parse_client_data ex_world (blit "{""type"": ""type"", ""challenge"": ""challenge"", ""origin"": ""http://example.com"", ""tokenBinding"": {""status"": -1}}");
    parse_client_data ex_world (blit "{""type"": ""type"", ""challenge"": ""challenge"", ""origin"": ""http://example.com"", ""tokenBinding"": {""status"": ""----""}}");
    parse_client_data ex_world (blit "{""type"": ""type"", ""challenge"": ""challenge"", ""origin"": ""http://example.com"", ""tokenBinding"": {""status"": ""present""}}") ] = true.
Proof. vm_compute. reflexivity. Qed.

(** tests/test_parsers.py:1481-1541 *)
Example test_parse_cose_key_success :
  [ parse_cose_key_dict ex_world [((VInt (-2)%Z), (VBytes (repeat x78 32))); ((VInt (-1)%Z), (VInt 6%Z)); ((VInt 1%Z), (VInt 1%Z)); ((VInt 2%Z), (VBytes (blit "kid"))); ((VInt 3%Z), (VInt (-8)%Z)); ((VInt 4%Z), (VList [(VInt 1%Z); (VInt 2%Z)])); ((VInt 5%Z), (VBytes (blit "base-IV")))];
    parse_cose_key_dict ex_world [((VInt (-3)%Z), (VBytes (repeat x79 32))); ((VInt (-2)%Z), (VBytes (repeat x78 32))); ((VInt (-1)%Z), (VInt 1%Z)); ((VInt 1%Z), (VInt 2%Z)); ((VInt 2%Z), (VBytes (blit "kid"))); ((VInt 3%Z), (VInt (-7)%Z)); ((VInt 4%Z), (VList [(VInt 1%Z); (VInt 2%Z)])); ((VInt 5%Z), (VBytes (blit "base-IV")))] ]
  = [ Ok (OKPKey {| kb_kty := (FValue, KT_OKP); kb_kid := (Some (blit "kid")); kb_alg := (Some (FValue, EDDSA)); kb_key_ops := (Some [(FValue, SIGN); (FValue, VERIFY)]); kb_base_IV := (Some (blit "base-IV")) |} (FValue, ED25519) (repeat x78 32));
    Ok (EC2Key {| kb_kty := (FValue, KT_EC2); kb_kid := (Some (blit "kid")); kb_alg := (Some (FValue, ES256)); kb_key_ops := (Some [(FValue, SIGN); (FValue, VERIFY)]); kb_base_IV := (Some (blit "base-IV")) |} (repeat x78 32) (repeat x79 32) (FValue, P_256)) ].
Proof. vm_compute. reflexivity. Qed.

(** tests/test_parsers.py:1544-1596 *)
Example test_parse_cose_key_error :
  forallb (raises [ParserError])
  [ parse_cose_key_dict ex_world [((VInt (-2)%Z), (VStr (lit "xxxxxxxxxxxxxxxxxxxxxxxxxxxxxxxxxxxxxxxxxxxxxxxxxxxxxxxxx"))); ((VInt (-1)%Z), (VInt 7%Z)); ((VInt 1%Z), (VBytes (blit "invalid"))); ((VInt 2%Z), (VBytes (blit "kid"))); ((VInt 3%Z), (VInt (-8)%Z)); ((VInt 4%Z), (VList [(VInt 1%Z); (VInt 2%Z)])); ((VInt 5%Z), (VBytes (blit "base-IV")))];
    parse_cose_key_dict ex_world [((VInt (-2)%Z), (VStr (lit "xxxxxxxxxxxxxxxxxxxxxxxxxxxxxxxxxxxxxxxxxxxxxxxxxxxxxxxxx"))); ((VInt (-1)%Z), (VInt 7%Z)); ((VInt 1%Z), (VStr (lit "invalid"))); ((VInt 2%Z), (VBytes (blit "kid"))); ((VInt 3%Z), (VInt (-8)%Z)); ((VInt 4%Z), (VList [(VInt 1%Z); (VInt 2%Z)])); ((VInt 5%Z), (VBytes (blit "base-IV")))];
    parse_cose_key_dict ex_world [((VInt (-2)%Z), (VStr (lit "xxxxxxxxxxxxxxxxxxxxxxxxxxxxxxxxxxxxxxxxxxxxxxxxxxxxxxxxx"))); ((VInt (-1)%Z), (VInt 7%Z)); ((VInt 1%Z), (VInt 1%Z)); ((VInt 2%Z), (VBytes (blit "kid"))); ((VInt 3%Z), (VInt (-8)%Z)); ((VInt 4%Z), (VList [(VInt 1%Z); (VInt 2%Z)])); ((VInt 5%Z), (VBytes (blit "base-IV")))];
    parse_cose_key_dict ex_world [((VInt (-2)%Z), (VStr (lit "xxxxxxxxxxxxxxxxxxxxxxxxxxxxxxxxxxxxxxxxxxxxxxxxxxxxxxxxx"))); ((VInt (-1)%Z), (VInt 7%Z)); ((VInt 1%Z), (VInt 1%Z)); ((VInt 2%Z), (VBytes (blit "kid"))); ((VInt 3%Z), (VInt (-8)%Z)); ((VInt 4%Z), (VList [(VInt 1%Z); (VInt 2%Z)])); ((VInt 5%Z), (VBytes (blit "base-IV")))] ] = true.
Proof. vm_compute. reflexivity. Qed.

(** tests/test_parsers.py:1599-1730 *)
Example test_parse_authenticator_data_success :
  [ parse_authenticator_data ex_world [x78; x78; x78; x78; x78; x78; x78; x78; x78; x78; x78; x78; x78; x78; x78; x78; x78; x78; x78; x78; x78; x78; x78; x78; x78; x78; x78; x78; x78; x78; x78; x78; x01; x79; x79; x79; x79];
    parse_authenticator_data ex_world [x78; x78; x78; x78; x78; x78; x78; x78; x78; x78; x78; x78; x78; x78; x78; x78; x78; x78; x78; x78; x78; x78; x78; x78; x78; x78; x78; x78; x78; x78; x78; x78; xc1; x79; x79; x79; x79; x7a; x7a; x7a; x7a; x7a; x7a; x7a; x7a; x7a; x7a; x7a; x7a; x7a; x7a; x7a; x7a; x00; x0a; x61; x61; x61; x61; x61; x61; x61; x61; x61; x61; xa8; x22; x58; x20; x79; x79; x79; x79; x79; x79; x79; x79; x79; x79; x79; x79; x79; x79; x79; x79; x79; x79; x79; x79; x79; x79; x79; x79; x79; x79; x79; x79; x79; x79; x79; x79; x21; x58; x20; x78; x78; x78; x78; x78; x78; x78; x78; x78; x78; x78; x78; x78; x78; x78; x78; x78; x78; x78; x78; x78; x78; x78; x78; x78; x78; x78; x78; x78; x78; x78; x78; x20; x01; x01; x02; x02; x43; x6b; x69; x64; x03; x26; x04; x82; x01; x02; x05; x47; x62; x61; x73; x65; x2d; x49; x56; xa1; x65; x61; x70; x70; x69; x64; xf5];
    parse_authenticator_data ex_world [x78; x78; x78; x78; x78; x78; x78; x78; x78; x78; x78; x78; x78; x78; x78; x78; x78; x78; x78; x78; x78; x78; x78; x78; x78; x78; x78; x78; x78; x78; x78; x78; x41; x79; x79; x79; x79; x7a; x7a; x7a; x7a; x7a; x7a; x7a; x7a; x7a; x7a; x7a; x7a; x7a; x7a; x7a; x7a; x00; x0a; x61; x61; x61; x61; x61; x61; x61; x61; x61; x61; xa8; x22; x58; x20; x79; x79; x79; x79; x79; x79; x79; x79; x79; x79; x79; x79; x79; x79; x79; x79; x79; x79; x79; x79; x79; x79; x79; x79; x79; x79; x79; x79; x79; x79; x79; x79; x21; x58; x20; x78; x78; x78; x78; x78; x78; x78; x78; x78; x78; x78; x78; x78; x78; x78; x78; x78; x78; x78; x78; x78; x78; x78; x78; x78; x78; x78; x78; x78; x78; x78; x78; x20; x01; x01; x02; x02; x43; x6b; x69; x64; x03; x26; x04; x82; x01; x02; x05; x47; x62; x61; x73; x65; x2d; x49; x56];
    parse_authenticator_data ex_world [x78; x78; x78; x78; x78; x78; x78; x78; x78; x78; x78; x78; x78; x78; x78; x78; x78; x78; x78; x78; x78; x78; x78; x78; x78; x78; x78; x78; x78; x78; x78; x78; x81; x79; x79; x79; x79; xa1; x65; x61; x70; x70; x69; x64; xf5] ]
  = [ Ok {| ad_rp_id_hash := (repeat x78 32); ad_flags := 1%N; ad_sign_count := 2038004089%N; ad_attested := None; ad_extensions := None |};
    Ok {| ad_rp_id_hash := (repeat x78 32); ad_flags := 193%N; ad_sign_count := 2038004089%N; ad_attested := (Some {| at_aaguid := (repeat x7a 16); at_id_length := 10%N; at_id := (repeat x61 10); at_key := (Some (EC2Key {| kb_kty := (FValue, KT_EC2); kb_kid := (Some (blit "kid")); kb_alg := (Some (FValue, ES256)); kb_key_ops := (Some [(FValue, SIGN); (FValue, VERIFY)]); kb_base_IV := (Some (blit "base-IV")) |} (repeat x78 32) (repeat x79 32) (FValue, P_256))) |}); ad_extensions := (Some {| ex_appid := (Some true); ex_tx_auth_simple := None; ex_tx_auth_generic := None; ex_authn_sel := None; ex_exts := None; ex_uvi := None; ex_loc := None; ex_uvm := None; ex_biometric_perf_bounds := None |}) |};
    Ok {| ad_rp_id_hash := (repeat x78 32); ad_flags := 65%N; ad_sign_count := 2038004089%N; ad_attested := (Some {| at_aaguid := (repeat x7a 16); at_id_length := 10%N; at_id := (repeat x61 10); at_key := (Some (EC2Key {| kb_kty := (FValue, KT_EC2); kb_kid := (Some (blit "kid")); kb_alg := (Some (FValue, ES256)); kb_key_ops := (Some [(FValue, SIGN); (FValue, VERIFY)]); kb_base_IV := (Some (blit "base-IV")) |} (repeat x78 32) (repeat x79 32) (FValue, P_256))) |}); ad_extensions := None |};
    Ok {| ad_rp_id_hash := (repeat x78 32); ad_flags := 129%N; ad_sign_count := 2038004089%N; ad_attested := None; ad_extensions := (Some {| ex_appid := (Some true); ex_tx_auth_simple := None; ex_tx_auth_generic := None; ex_authn_sel := None; ex_exts := None; ex_uvi := None; ex_loc := None; ex_uvm := None; ex_biometric_perf_bounds := None |}) |} ].
Proof. vm_compute. reflexivity. Qed.

(** tests/test_parsers.py:1733-1816 *)
Example test_parse_authenticator_data_error :
  forallb (raises [ParserError; DecodingError])
  [ parse_authenticator_data ex_world (repeat x78 32);
    parse_authenticator_data ex_world [x78; x78; x78; x78; x78; x78; x78; x78; x78; x78; x78; x78; x78; x78; x78; x78; x78; x78; x78; x78; x78; x78; x78; x78; x78; x78; x78; x78; x78; x78; x78; x78; x81; x79; x79; x79; x79];
    parse_authenticator_data ex_world [x78; x78; x78; x78; x78; x78; x78; x78; x78; x78; x78; x78; x78; x78; x78; x78; x78; x78; x78; x78; x78; x78; x78; x78; x78; x78; x78; x78; x78; x78; x78; x78; x01; x79; x79; x79; x79; xa1; x65; x61; x70; x70; x69; x64; xf5];
    parse_authenticator_data ex_world [x78; x78; x78; x78; x78; x78; x78; x78; x78; x78; x78; x78; x78; x78; x78; x78; x78; x78; x78; x78; x78; x78; x78; x78; x78; x78; x78; x78; x78; x78; x78; x78; x01; x79; x79; x79; x79; x7a; x7a; x7a; x7a; x7a; x7a; x7a; x7a; x7a; x7a; x7a; x7a; x7a; x7a; x7a; x7a; x00; x0a; x61; x61; x61; x61; x61; x61; x61; x61; x61; x61; xa8; x22; x58; x20; x79; x79; x79; x79; x79; x79; x79; x79; x79; x79; x79; x79; x79; x79; x79; x79; x79; x79; x79; x79; x79; x79; x79; x79; x79; x79; x79; x79; x79; x79; x79; x79; x21; x58; x20; x78; x78; x78; x78; x78; x78; x78; x78; x78; x78; x78; x78; x78; x78; x78; x78; x78; x78; x78; x78; x78; x78; x78; x78; x78; x78; x78; x78; x78; x78; x78; x78; x20; x01; x01; x02; x02; x43; x6b; x69; x64; x03; x26; x04; x82; x01; x02; x05; x47; x62; x61; x73; x65; x2d; x49; x56];
    parse_authenticator_data ex_world (blit "xxxxxxxxxxxxxxxxxxxxxxxxxxxxxxxxAyyyy");
    parse_authenticator_data ex_world [x78; x78; x78; x78; x78; x78; x78; x78; x78; x78; x78; x78; x78; x78; x78; x78; x78; x78; x78; x78; x78; x78; x78; x78; x78; x78; x78; x78; x78; x78; x78; x78; x41; x79; x79; x79; x79; x7a; x7a; x7a; x7a; x7a; x7a; x7a; x7a; x7a; x7a; x7a; x7a; x7a; x7a; x7a; x7a; x00; x0a; x61; x61; x61; x61; x61; x61; x61; x61; x61; x61; x69; x6e; x76; x61; x6c; x69; x64];
    parse_authenticator_data ex_world [x78; x78; x78; x78; x78; x78; x78; x78; x78; x78; x78; x78; x78; x78; x78; x78; x78; x78; x78; x78; x78; x78; x78; x78; x78; x78; x78; x78; x78; x78; x78; x78; x41; x79; x79; x79; x79; x7a; x7a; x7a; x7a; x7a; x7a; x7a; x7a; x7a; x7a; x7a; x7a; x7a; x7a; x7a; x7a; x00; x0a; x61; x61; x61; x61; x61; x61; x61; x61; x61; x61; x83; x01; x02; x03];
    parse_authenticator_data ex_world [x78; x78; x78; x78; x78; x78; x78; x78; x78; x78; x78; x78; x78; x78; x78; x78; x78; x78; x78; x78; x78; x78; x78; x78; x78; x78; x78; x78; x78; x78; x78; x78; x81; x79; x79; x79; x79; x69; x6e; x76; x61; x6c; x69; x64];
    parse_authenticator_data ex_world [x78; x78; x78; x78; x78; x78; x78; x78; x78; x78; x78; x78; x78; x78; x78; x78; x78; x78; x78; x78; x78; x78; x78; x78; x78; x78; x78; x78; x78; x78; x78; x78; x81; x79; x79; x79; x79; x83; x01; x02; x03] ] = true.
Proof. vm_compute. reflexivity. Qed.

(** tests/test_parsers.py:1819-1924 *)
Example test_parse_attestation_success :
  [ parse_attestation_object ex_world [xa3; x68; x61; x75; x74; x68; x44; x61; x74; x61; x58; xa8; x78; x78; x78; x78; x78; x78; x78; x78; x78; x78; x78; x78; x78; x78; x78; x78; x78; x78; x78; x78; x78; x78; x78; x78; x78; x78; x78; x78; x78; x78; x78; x78; xc1; x79; x79; x79; x79; x7a; x7a; x7a; x7a; x7a; x7a; x7a; x7a; x7a; x7a; x7a; x7a; x7a; x7a; x7a; x7a; x00; x0a; x61; x61; x61; x61; x61; x61; x61; x61; x61; x61; xa8; x22; x58; x20; x79; x79; x79; x79; x79; x79; x79; x79; x79; x79; x79; x79; x79; x79; x79; x79; x79; x79; x79; x79; x79; x79; x79; x79; x79; x79; x79; x79; x79; x79; x79; x79; x21; x58; x20; x78; x78; x78; x78; x78; x78; x78; x78; x78; x78; x78; x78; x78; x78; x78; x78; x78; x78; x78; x78; x78; x78; x78; x78; x78; x78; x78; x78; x78; x78; x78; x78; x20; x01; x01; x02; x02; x43; x6b; x69; x64; x03; x26; x04; x82; x01; x02; x05; x47; x62; x61; x73; x65; x2d; x49; x56; xa1; x65; x61; x70; x70; x69; x64; xf5; x63; x66; x6d; x74; x68; x66; x69; x64; x6f; x2d; x75; x32; x66; x67; x61; x74; x74; x53; x74; x6d; x74; xa2; x63; x73; x69; x67; x49; x73; x69; x67; x6e; x61; x74; x75; x72; x65; x63; x78; x35; x63; x81; x41; x78] ]
  = [ Ok ({| ao_auth_data := (Some {| ad_rp_id_hash := (repeat x78 32); ad_flags := 193%N; ad_sign_count := 2038004089%N; ad_attested := (Some {| at_aaguid := (repeat x7a 16); at_id_length := 10%N; at_id := (repeat x61 10); at_key := (Some (EC2Key {| kb_kty := (FValue, KT_EC2); kb_kid := (Some (blit "kid")); kb_alg := (Some (FValue, ES256)); kb_key_ops := (Some [(FValue, SIGN); (FValue, VERIFY)]); kb_base_IV := (Some (blit "base-IV")) |} (repeat x78 32) (repeat x79 32) (FValue, P_256))) |}); ad_extensions := (Some {| ex_appid := (Some true); ex_tx_auth_simple := None; ex_tx_auth_generic := None; ex_authn_sel := None; ex_exts := None; ex_uvi := None; ex_loc := None; ex_uvm := None; ex_biometric_perf_bounds := None |}) |}); ao_fmt := F_FIDO_U2F; ao_stmt := (S_U2F (Some (blit "signature")) [(blit "x")]) |}, [((VStr (lit "authData")), (VBytes [x78; x78; x78; x78; x78; x78; x78; x78; x78; x78; x78; x78; x78; x78; x78; x78; x78; x78; x78; x78; x78; x78; x78; x78; x78; x78; x78; x78; x78; x78; x78; x78; xc1; x79; x79; x79; x79; x7a; x7a; x7a; x7a; x7a; x7a; x7a; x7a; x7a; x7a; x7a; x7a; x7a; x7a; x7a; x7a; x00; x0a; x61; x61; x61; x61; x61; x61; x61; x61; x61; x61; xa8; x22; x58; x20; x79; x79; x79; x79; x79; x79; x79; x79; x79; x79; x79; x79; x79; x79; x79; x79; x79; x79; x79; x79; x79; x79; x79; x79; x79; x79; x79; x79; x79; x79; x79; x79; x21; x58; x20; x78; x78; x78; x78; x78; x78; x78; x78; x78; x78; x78; x78; x78; x78; x78; x78; x78; x78; x78; x78; x78; x78; x78; x78; x78; x78; x78; x78; x78; x78; x78; x78; x20; x01; x01; x02; x02; x43; x6b; x69; x64; x03; x26; x04; x82; x01; x02; x05; x47; x62; x61; x73; x65; x2d; x49; x56; xa1; x65; x61; x70; x70; x69; x64; xf5])); ((VStr (lit "fmt")), (VStr (lit "fido-u2f"))); ((VStr (lit "attStmt")), (VDict [((VStr (lit "sig")), (VBytes (blit "signature"))); ((VStr (lit "x5c")), (VList [(VBytes (blit "x"))]))]))]) ].
Proof. vm_compute. reflexivity. Qed.

(** tests/test_parsers.py:1927-2060 *)
Example test_parse_attestation_error :
  forallb (raises [ParserError; DecodingError])
  [ parse_attestation_object ex_world (blit "invalid");
    parse_attestation_object ex_world [x83; x01; x02; x03];
    parse_attestation_object ex_world [xa0];
    parse_attestation_object ex_world [xa3; x68; x61; x75; x74; x68; x44; x61; x74; x61; x69; x61; x75; x74; x68; x2d; x64; x61; x74; x61; x63; x66; x6d; x74; x68; x66; x69; x64; x6f; x2d; x75; x32; x66; x67; x61; x74; x74; x53; x74; x6d; x74; xa2; x63; x73; x69; x67; x49; x73; x69; x67; x6e; x61; x74; x75; x72; x65; x63; x78; x35; x63; x81; x41; x78];
    parse_attestation_object ex_world [xa3; x68; x61; x75; x74; x68; x44; x61; x74; x61; x58; xa8; x78; x78; x78; x78; x78; x78; x78; x78; x78; x78; x78; x78; x78; x78; x78; x78; x78; x78; x78; x78; x78; x78; x78; x78; x78; x78; x78; x78; x78; x78; x78; x78; xc1; x79; x79; x79; x79; x7a; x7a; x7a; x7a; x7a; x7a; x7a; x7a; x7a; x7a; x7a; x7a; x7a; x7a; x7a; x7a; x00; x0a; x61; x61; x61; x61; x61; x61; x61; x61; x61; x61; xa8; x22; x58; x20; x79; x79; x79; x79; x79; x79; x79; x79; x79; x79; x79; x79; x79; x79; x79; x79; x79; x79; x79; x79; x79; x79; x79; x79; x79; x79; x79; x79; x79; x79; x79; x79; x21; x58; x20; x78; x78; x78; x78; x78; x78; x78; x78; x78; x78; x78; x78; x78; x78; x78; x78; x78; x78; x78; x78; x78; x78; x78; x78; x78; x78; x78; x78; x78; x78; x78; x78; x20; x01; x01; x02; x02; x43; x6b; x69; x64; x03; x26; x04; x82; x01; x02; x05; x47; x62; x61; x73; x65; x2d; x49; x56; xa1; x65; x61; x70; x70; x69; x64; xf5; x63; x66; x6d; x74; x46; x70; x61; x63; x6b; x65; x64; x67; x61; x74; x74; x53; x74; x6d; x74; xa2; x63; x73; x69; x67; x49; x73; x69; x67; x6e; x61; x74; x75; x72; x65; x63; x78; x35; x63; x81; x41; x78];
    parse_attestation_object ex_world [xa3; x68; x61; x75; x74; x68; x44; x61; x74; x61; x58; xa8; x78; x78; x78; x78; x78; x78; x78; x78; x78; x78; x78; x78; x78; x78; x78; x78; x78; x78; x78; x78; x78; x78; x78; x78; x78; x78; x78; x78; x78; x78; x78; x78; xc1; x79; x79; x79; x79; x7a; x7a; x7a; x7a; x7a; x7a; x7a; x7a; x7a; x7a; x7a; x7a; x7a; x7a; x7a; x7a; x00; x0a; x61; x61; x61; x61; x61; x61; x61; x61; x61; x61; xa8; x22; x58; x20; x79; x79; x79; x79; x79; x79; x79; x79; x79; x79; x79; x79; x79; x79; x79; x79; x79; x79; x79; x79; x79; x79; x79; x79; x79; x79; x79; x79; x79; x79; x79; x79; x21; x58; x20; x78; x78; x78; x78; x78; x78; x78; x78; x78; x78; x78; x78; x78; x78; x78; x78; x78; x78; x78; x78; x78; x78; x78; x78; x78; x78; x78; x78; x78; x78; x78; x78; x20; x01; x01; x02; x02; x43; x6b; x69; x64; x03; x26; x04; x82; x01; x02; x05; x47; x62; x61; x73; x65; x2d; x49; x56; xa1; x65; x61; x70; x70; x69; x64; xf5; x63; x66; x6d; x74; x68; x66; x69; x64; x6f; x2d; x75; x32; x66; x67; x61; x74; x74; x53; x74; x6d; x74; x48; x61; x74; x74; x2d; x73; x74; x6d; x74];
    parse_attestation_object ex_world [xa3; x68; x61; x75; x74; x68; x44; x61; x74; x61; x58; xa8; x78; x78; x78; x78; x78; x78; x78; x78; x78; x78; x78; x78; x78; x78; x78; x78; x78; x78; x78; x78; x78; x78; x78; x78; x78; x78; x78; x78; x78; x78; x78; x78; xc1; x79; x79; x79; x79; x7a; x7a; x7a; x7a; x7a; x7a; x7a; x7a; x7a; x7a; x7a; x7a; x7a; x7a; x7a; x7a; x00; x0a; x61; x61; x61; x61; x61; x61; x61; x61; x61; x61; xa8; x22; x58; x20; x79; x79; x79; x79; x79; x79; x79; x79; x79; x79; x79; x79; x79; x79; x79; x79; x79; x79; x79; x79; x79; x79; x79; x79; x79; x79; x79; x79; x79; x79; x79; x79; x21; x58; x20; x78; x78; x78; x78; x78; x78; x78; x78; x78; x78; x78; x78; x78; x78; x78; x78; x78; x78; x78; x78; x78; x78; x78; x78; x78; x78; x78; x78; x78; x78; x78; x78; x20; x01; x01; x02; x02; x43; x6b; x69; x64; x03; x26; x04; x82; x01; x02; x05; x47; x62; x61; x73; x65; x2d; x49; x56; xa1; x65; x61; x70; x70; x69; x64; xf5; x63; x66; x6d; x74; x20; x67; x61; x74; x74; x53; x74; x6d; x74; xa2; x63; x73; x69; x67; x49; x73; x69; x67; x6e; x61; x74; x75; x72; x65; x63; x78; x35; x63; x81; x41; x78] ] = true.
Proof. vm_compute. reflexivity. Qed.

(** ** /repo/tests/test_converters.py *)


(** tests/test_converters.py:46-168 *)
Example test_jsonify_credential_creation_options :
  match jsonify ascii_unicode 100 true (OObj [(KStr (lit "public_key"), (OObj [(KStr (lit "rp"), (OObj [(KStr (lit "name"), (OStr (lit "Example Test"))); (KStr (lit "icon"), ONone); (KStr (lit "id"), (OStr (lit "example.test")))])); (KStr (lit "user"), (OObj [(KStr (lit "name"), (OStr (lit "example"))); (KStr (lit "icon"), ONone); (KStr (lit "id"), (OBytes (blit "random"))); (KStr (lit "display_name"), (OStr (lit "dp")))])); (KStr (lit "challenge"), (OBytes (blit "secure-random"))); (KStr (lit "pub_key_cred_params"), (OList [(OObj [(KStr (lit "type"), (OEnum (OStr (lit "public-key")))); (KStr (lit "alg"), (OEnum (OInt (-7)%Z)))]); (OObj [(KStr (lit "type"), (OEnum (OStr (lit "public-key")))); (KStr (lit "alg"), (OEnum (OInt (-35)%Z)))])])); (KStr (lit "timeout"), (OInt 30500%Z)); (KStr (lit "authenticator_selection"), (OObj [(KStr (lit "authenticator_attachment"), (OEnum (OStr (lit "cross-platform")))); (KStr (lit "require_resident_key"), (OBool false)); (KStr (lit "user_verification"), (OEnum (OStr (lit "required"))))])); (KStr (lit "extensions"), (OObj [(KStr (lit "appid"), (OStr (lit "appid"))); (KStr (lit "tx_auth_simple"), (OStr (lit "tx_auth_simple"))); (KStr (lit "tx_auth_generic"), (OObj [(KStr (lit "content_type"), (OStr (lit "text/plain"))); (KStr (lit "content"), (OBytes (blit "sample text")))])); (KStr (lit "authn_sel"), (OList [(OBytes (blit "auth1")); (OBytes (blit "auth2")); (OBytes (blit "auth3"))])); (KStr (lit "exts"), (OBool true)); (KStr (lit "uvi"), (OBool false)); (KStr (lit "loc"), (OBool true)); (KStr (lit "uvm"), (OBool false)); (KStr (lit "biometric_perf_bounds"), (OObj [(KStr (lit "FAR"), (OFloat 4600877379321698714%N)); (KStr (lit "FRR"), (OFloat 4602678819172646912%N))]))])); (KStr (lit "attestation"), (OEnum (OStr (lit "direct")))); (KStr (lit "exclude_credentials"), (OList [(OObj [(KStr (lit "type"), (OEnum (OStr (lit "public-key")))); (KStr (lit "id"), (OBytes (blit "excluded-credential"))); (KStr (lit "transports"), (OList [(OEnum (OStr (lit "ble"))); (OEnum (OStr (lit "nfc")))]))])]))]))]) with
  | Ok v => same 100 v (VDict [((VStr (lit "publicKey")), (VDict [((VStr (lit "rp")), (VDict [((VStr (lit "name")), (VStr (lit "Example Test"))); ((VStr (lit "id")), (VStr (lit "example.test")))])); ((VStr (lit "user")), (VDict [((VStr (lit "name")), (VStr (lit "example"))); ((VStr (lit "id")), (VStr (lit "cmFuZG9t"))); ((VStr (lit "displayName")), (VStr (lit "dp")))])); ((VStr (lit "challenge")), (VStr (lit "c2VjdXJlLXJhbmRvbQ=="))); ((VStr (lit "pubKeyCredParams")), (VList [(VDict [((VStr (lit "type")), (VStr (lit "public-key"))); ((VStr (lit "alg")), (VInt (-7)%Z))]); (VDict [((VStr (lit "type")), (VStr (lit "public-key"))); ((VStr (lit "alg")), (VInt (-35)%Z))])])); ((VStr (lit "timeout")), (VInt 30500%Z)); ((VStr (lit "authenticatorSelection")), (VDict [((VStr (lit "authenticatorAttachment")), (VStr (lit "cross-platform"))); ((VStr (lit "requireResidentKey")), (VBool false)); ((VStr (lit "userVerification")), (VStr (lit "required")))])); ((VStr (lit "extensions")), (VDict [((VStr (lit "appid")), (VStr (lit "appid"))); ((VStr (lit "txAuthSimple")), (VStr (lit "tx_auth_simple"))); ((VStr (lit "txAuthGeneric")), (VDict [((VStr (lit "contentType")), (VStr (lit "text/plain"))); ((VStr (lit "content")), (VStr (lit "c2FtcGxlIHRleHQ=")))])); ((VStr (lit "authnSel")), (VList [(VStr (lit "YXV0aDE=")); (VStr (lit "YXV0aDI=")); (VStr (lit "YXV0aDM="))])); ((VStr (lit "exts")), (VBool true)); ((VStr (lit "uvi")), (VBool false)); ((VStr (lit "loc")), (VBool true)); ((VStr (lit "uvm")), (VBool false)); ((VStr (lit "biometricPerfBounds")), (VDict [((VStr (lit "FAR")), (VFloat 4600877379321698714%N)); ((VStr (lit "FRR")), (VFloat 4602678819172646912%N))]))])); ((VStr (lit "attestation")), (VStr (lit "direct"))); ((VStr (lit "excludeCredentials")), (VList [(VDict [((VStr (lit "type")), (VStr (lit "public-key"))); ((VStr (lit "id")), (VStr (lit "ZXhjbHVkZWQtY3JlZGVudGlhbA=="))); ((VStr (lit "transports")), (VList [(VStr (lit "ble")); (VStr (lit "nfc"))]))])]))]))]) = true
  | Raise _ => False
  end.
Proof. vm_compute. reflexivity. Qed.

(** tests/test_converters.py:171-253 *)
Example test_jsonify_credential_request_options :
  match jsonify ascii_unicode 100 true (OObj [(KStr (lit "mediation"), (OEnum (OStr (lit "required")))); (KStr (lit "public_key"), (OObj [(KStr (lit "challenge"), (OBytes (blit "request-challenge"))); (KStr (lit "timeout"), (OInt 3600%Z)); (KStr (lit "rp_id"), (OStr (lit "example.py"))); (KStr (lit "extensions"), (OObj [(KStr (lit "appid"), (OStr (lit "appid"))); (KStr (lit "tx_auth_simple"), (OStr (lit "tx_auth_simple"))); (KStr (lit "tx_auth_generic"), (OObj [(KStr (lit "content_type"), (OStr (lit "text/plain"))); (KStr (lit "content"), (OBytes (blit "sample text")))])); (KStr (lit "authn_sel"), (OList [(OBytes (blit "auth1")); (OBytes (blit "auth2")); (OBytes (blit "auth3"))])); (KStr (lit "exts"), (OBool true)); (KStr (lit "uvi"), (OBool false)); (KStr (lit "loc"), (OBool true)); (KStr (lit "uvm"), (OBool false)); (KStr (lit "biometric_perf_bounds"), (OObj [(KStr (lit "FAR"), (OFloat 4600877379321698714%N)); (KStr (lit "FRR"), (OFloat 4602678819172646912%N))]))])); (KStr (lit "allow_credentials"), (OList [(OObj [(KStr (lit "type"), (OEnum (OStr (lit "public-key")))); (KStr (lit "id"), (OBytes (blit "excluded-credential"))); (KStr (lit "transports"), (OList [(OEnum (OStr (lit "ble"))); (OEnum (OStr (lit "nfc")))]))])])); (KStr (lit "user_verification"), (OEnum (OStr (lit "preferred"))))]))]) with
  | Ok v => same 100 v (VDict [((VStr (lit "mediation")), (VStr (lit "required"))); ((VStr (lit "publicKey")), (VDict [((VStr (lit "rpId")), (VStr (lit "example.py"))); ((VStr (lit "challenge")), (VStr (lit "cmVxdWVzdC1jaGFsbGVuZ2U="))); ((VStr (lit "timeout")), (VInt 3600%Z)); ((VStr (lit "extensions")), (VDict [((VStr (lit "appid")), (VStr (lit "appid"))); ((VStr (lit "txAuthSimple")), (VStr (lit "tx_auth_simple"))); ((VStr (lit "txAuthGeneric")), (VDict [((VStr (lit "contentType")), (VStr (lit "text/plain"))); ((VStr (lit "content")), (VStr (lit "c2FtcGxlIHRleHQ=")))])); ((VStr (lit "authnSel")), (VList [(VStr (lit "YXV0aDE=")); (VStr (lit "YXV0aDI=")); (VStr (lit "YXV0aDM="))])); ((VStr (lit "exts")), (VBool true)); ((VStr (lit "uvi")), (VBool false)); ((VStr (lit "loc")), (VBool true)); ((VStr (lit "uvm")), (VBool false)); ((VStr (lit "biometricPerfBounds")), (VDict [((VStr (lit "FAR")), (VFloat 4600877379321698714%N)); ((VStr (lit "FRR")), (VFloat 4602678819172646912%N))]))])); ((VStr (lit "userVerification")), (VStr (lit "preferred"))); ((VStr (lit "allowCredentials")), (VList [(VDict [((VStr (lit "type")), (VStr (lit "public-key"))); ((VStr (lit "id")), (VStr (lit "ZXhjbHVkZWQtY3JlZGVudGlhbA=="))); ((VStr (lit "transports")), (VList [(VStr (lit "ble")); (VStr (lit "nfc"))]))])]))]))]) = true
  | Raise _ => False
  end.
Proof. vm_compute. reflexivity. Qed.

(** tests/test_converters.py:29-33 *)
Example test_jsonify_success :
  [ jsonify ascii_unicode 100 true ONone ]
  = [ Ok VNone ].
Proof. vm_compute. reflexivity. Qed.

(** tests/test_converters.py:36-43 *)
Example test_jsonify_errors :
  forallb (raises [JSONConversionError])
  [ jsonify ascii_unicode 100 true (ODict [(KOther, (OStr (lit "data")))]) ] = true.
Proof. vm_compute. reflexivity. Qed.

(** tests/test_converters.py:256-271 *)
Example test__build_base_cose_dictionary_success :
  [ base_cose_dictionary {| kb_kty := (FValue, KT_EC2); kb_kid := (Some (blit "kid")); kb_alg := (Some (FValue, ES256)); kb_key_ops := (Some [(FValue, VERIFY)]); kb_base_IV := (Some (blit "base-IV")) |} ]
  = [ Ok [((VInt 1%Z), (VInt 2%Z)); ((VInt 2%Z), (VBytes (blit "kid"))); ((VInt 3%Z), (VInt (-7)%Z)); ((VInt 4%Z), (VList [(VInt 2%Z)])); ((VInt 5%Z), (VBytes (blit "base-IV")))] ].
Proof. vm_compute. reflexivity. Qed.

(** tests/test_converters.py:274-295 *)
Example test_cryptography_ec2_public_key :
  [ cryptography_public_key ex_world (EC2Key {| kb_kty := (FValue, KT_EC2); kb_kid := None; kb_alg := None; kb_key_ops := None; kb_base_IV := None |} [x02; x81; x52; xbd; x63; x10; x1d; x93; x94; xc8; xa6; x2c; xa4; xc0; x50; xed; x4d; x97; xb5; xa0; xb6; x5e; x14; x1d; xbd; xa4; xf5; xaf; x4d; x3a; xac; xf7] [x03; x90; xf4; x20; x2e; x01; xf8; xf0; x7d; x46; x14; xf6; x19; xae; x9a; x17; x2c; x94; xcd; xd2; x4a; x24; x5f; x3c; xc0; xc4; x41; xba; xd9; x66; x00; x9a] (FValue, P_256));
    cryptography_public_key ex_world (EC2Key {| kb_kty := (FValue, KT_EC2); kb_kid := None; kb_alg := None; kb_key_ops := None; kb_base_IV := None |} [x00; x00; x00; x00; x00; x00; x00; x00; x00; x00; x00; x00; x00; x00; x00; x00; x02; x87; xe1; x4e; x51; x8e; xf8; xc9; x89; x40; x58; x03; x1f; x96; x2d; x50; x89; xc1; xcd; x9b; x1b; x00; xcb; xfd; x75; x6f; xe9; x00; x27; x40; xe4; x0e] [x00; x00; x00; x00; x00; x00; x00; x00; x00; x00; x00; x00; x00; x00; x00; x00; x03; xb3; x62; xe6; xcc; x8f; x8c; x5f; x97; xa0; x58; xec; x8f; xf7; x11; x26; x51; xde; xec; x8d; x94; xd4; xe1; x11; xb9; x40; xc6; xc6; x57; x4d; xec; xe6] (FValue, P_384));
    cryptography_public_key ex_world (EC2Key {| kb_kty := (FValue, KT_EC2); kb_kid := None; kb_alg := None; kb_key_ops := None; kb_base_IV := None |} [x00; x00; x00; x00; x00; x00; x00; x00; x00; x00; x00; x00; x00; x00; x00; x00; x00; x00; x00; x00; x00; x00; x00; x00; x00; x00; x00; x00; x00; x00; x00; x00; x00; x00; x01; xbe; xbd; x6f; xe8; x5d; x4a; x78; x89; x48; x48; x47; xd2; xe0; xf2; x2e; x64; xe6; x3f; x0d; xb0; xe6; x40; x99; x7c; x03; xc2; x75; x52; xc2; x9e; x7e] [x00; x00; x00; x00; x00; x00; x00; x00; x00; x00; x00; x00; x00; x00; x00; x00; x00; x00; x00; x00; x00; x00; x00; x00; x00; x00; x00; x00; x00; x00; x00; x00; x00; x00; x01; xf6; x6f; x3c; xee; xf7; xf7; x70; x98; x30; x5e; xfe; xdb; xdd; x95; xd2; x33; x3d; xbb; xe4; x89; x5b; xe8; x57; x3d; xb3; xaf; x93; x2a; x84; x6b; xe0] (FValue, P_521)) ]
  = [ Ok (CEC SECP256R1 1133120017585847693966237268096800312776387615020081620185283432469686299895 1613049416749973578068632034746376228416084160002846597163673920858399047834);
    Ok (CEC SECP384R1 1144705055304593398478323403431097392611507297670894338736762730379919549454 1673886763817608739692331888032897261627780567440502907016209540372990127334);
    Ok (CEC SECP521R1 789321237975612199367615327187778833482723178166473826340536029645090496126 887724963126375659064791708468893893687210425881774474795181431189825416160) ].
Proof. vm_compute. reflexivity. Qed.

(** tests/test_converters.py:298-313 *)
Example test_cryptography_okp_public_key_ed25519 :
  [ cryptography_public_key ex_world (OKPKey {| kb_kty := (FValue, KT_OKP); kb_kid := None; kb_alg := None; kb_key_ops := None; kb_base_IV := None |} (FValue, ED25519) [x1a; xa4; x1f; xa8; xd6; x0f; xb0; xb8; xb9; xd1; x6b; x93; x72; xa0; xcb; xc4; x59; x04; xc7; xb3; x71; x77; x21; xa3; xc4; x68; x96; x31; xde; x02; xb3; x2f]) ]
  = [ Ok (CEd25519 [x1a; xa4; x1f; xa8; xd6; x0f; xb0; xb8; xb9; xd1; x6b; x93; x72; xa0; xcb; xc4; x59; x04; xc7; xb3; x71; x77; x21; xa3; xc4; x68; x96; x31; xde; x02; xb3; x2f]) ].
Proof. vm_compute. reflexivity. Qed.

(** tests/test_converters.py:316-331 *)
Example test_cryptography_okp_public_key_ed448 :
  [ cryptography_public_key ex_world (OKPKey {| kb_kty := (FValue, KT_OKP); kb_kid := None; kb_alg := None; kb_key_ops := None; kb_base_IV := None |} (FValue, ED448) [xd0; x4e; x39; x5b; xae; x49; xc0; xdf; xa6; x8d; x6a; x63; x51; x54; x52; x4b; x3d; xe2; x42; xdc; x44; xaa; xa2; x46; x0a; xb7; x59; x73; x78; xfe; xfa; x11; x2d; x44; xf0; x49; x6b; xb8; x46; x8f; xb2; x21; xc4; xf3; x0f; xec; x64; x7b; x69; x02; x9b; x15; x88; x60; x24; x36; x38]) ]
  = [ Ok (CEd448 [xd0; x4e; x39; x5b; xae; x49; xc0; xdf; xa6; x8d; x6a; x63; x51; x54; x52; x4b; x3d; xe2; x42; xdc; x44; xaa; xa2; x46; x0a; xb7; x59; x73; x78; xfe; xfa; x11; x2d; x44; xf0; x49; x6b; xb8; x46; x8f; xb2; x21; xc4; xf3; x0f; xec; x64; x7b; x69; x02; x9b; x15; x88; x60; x24; x36; x38]) ].
Proof. vm_compute. reflexivity. Qed.

(** tests/test_converters.py:334-339 *)
Example test_cose_ec2_public_key :
  [ through_cose (EC2Key {| kb_kty := (FValue, KT_EC2); kb_kid := None; kb_alg := (Some (FValue, ES256)); kb_key_ops := None; kb_base_IV := None |} [x01; x24; x48; xdb; x47; xd7; x24; x48; xaa; xc4; x41; xc4; x7b; x9f; xfe; x49; xa6; xe7; x27; x57; xb5; xc2; x62; x53; x85; xd1; x93; x41; x93; xa4; x62; xe8] [x03; x4a; x84; xcf; x62; x3a; x93; xba; xc0; x28; xd2; xae; xee; xb0; xb5; xf2; x59; x51; x4d; xdd; xa5; xe6; xa9; x31; x5f; x18; x1b; xff; x6e; x61; x7a; xff] (FValue, P_256));
    through_cose (EC2Key {| kb_kty := (FValue, KT_EC2); kb_kid := None; kb_alg := (Some (FValue, ES256)); kb_key_ops := None; kb_base_IV := None |} [x00; x00; x00; x00; x00; x00; x00; x00; x00; x00; x00; x00; x00; x00; x00; x00; x00; x85; xb7; xdb; x32; x15; x64; xc4; x34; xb8; x94; x56; xec; x41; x20; x02; x8c; x8b; x22; x2d; xf7; x3d; xa4; x3a; x5e; x38; x4f; xf9; x6f; xaa; xb8; xa9] [x00; x00; x00; x00; x00; x00; x00; x00; x00; x00; x00; x00; x00; x00; x00; x00; x03; xa7; x72; x55; x64; xc1; x21; x21; xab; x61; xd9; x32; x3d; xb4; x7f; xfd; x05; x56; x43; xc1; x3d; x6e; x08; x53; x3c; xed; xae; x61; x25; x13; x46; x80] (FValue, P_384));
    through_cose (EC2Key {| kb_kty := (FValue, KT_EC2); kb_kid := None; kb_alg := (Some (FValue, ES256)); kb_key_ops := None; kb_base_IV := None |} [x00; x00; x00; x00; x00; x00; x00; x00; x00; x00; x00; x00; x00; x00; x00; x00; x00; x00; x00; x00; x00; x00; x00; x00; x00; x00; x00; x00; x00; x00; x00; x00; x00; x00; x00; x60; xdf; x7b; xbf; x5b; x44; xe7; x95; xc0; x5e; x5f; x57; x82; x82; xfe; xc7; x69; xbd; xd2; x6a; x2b; xbd; xc8; xe7; xe0; x53; xd0; x5f; xd5; xe8; x8f] [x00; x00; x00; x00; x00; x00; x00; x00; x00; x00; x00; x00; x00; x00; x00; x00; x00; x00; x00; x00; x00; x00; x00; x00; x00; x00; x00; x00; x00; x00; x00; x00; x00; x00; x01; x0a; x13; x57; x5d; x8c; x69; x46; x04; xe2; x39; xc2; xce; x21; x26; xba; x26; x13; xc0; xf2; xf3; x6a; x62; x5c; x6f; xcf; x12; xca; x1f; xe2; x30; x6b] (FValue, P_521)) ]
  = [ Ok (EC2Key {| kb_kty := (FValue, KT_EC2); kb_kid := None; kb_alg := (Some (FValue, ES256)); kb_key_ops := None; kb_base_IV := None |} [x01; x24; x48; xdb; x47; xd7; x24; x48; xaa; xc4; x41; xc4; x7b; x9f; xfe; x49; xa6; xe7; x27; x57; xb5; xc2; x62; x53; x85; xd1; x93; x41; x93; xa4; x62; xe8] [x03; x4a; x84; xcf; x62; x3a; x93; xba; xc0; x28; xd2; xae; xee; xb0; xb5; xf2; x59; x51; x4d; xdd; xa5; xe6; xa9; x31; x5f; x18; x1b; xff; x6e; x61; x7a; xff] (FValue, P_256));
    Ok (EC2Key {| kb_kty := (FValue, KT_EC2); kb_kid := None; kb_alg := (Some (FValue, ES256)); kb_key_ops := None; kb_base_IV := None |} [x00; x00; x00; x00; x00; x00; x00; x00; x00; x00; x00; x00; x00; x00; x00; x00; x00; x85; xb7; xdb; x32; x15; x64; xc4; x34; xb8; x94; x56; xec; x41; x20; x02; x8c; x8b; x22; x2d; xf7; x3d; xa4; x3a; x5e; x38; x4f; xf9; x6f; xaa; xb8; xa9] [x00; x00; x00; x00; x00; x00; x00; x00; x00; x00; x00; x00; x00; x00; x00; x00; x03; xa7; x72; x55; x64; xc1; x21; x21; xab; x61; xd9; x32; x3d; xb4; x7f; xfd; x05; x56; x43; xc1; x3d; x6e; x08; x53; x3c; xed; xae; x61; x25; x13; x46; x80] (FValue, P_384));
    Ok (EC2Key {| kb_kty := (FValue, KT_EC2); kb_kid := None; kb_alg := (Some (FValue, ES256)); kb_key_ops := None; kb_base_IV := None |} [x00; x00; x00; x00; x00; x00; x00; x00; x00; x00; x00; x00; x00; x00; x00; x00; x00; x00; x00; x00; x00; x00; x00; x00; x00; x00; x00; x00; x00; x00; x00; x00; x00; x00; x00; x60; xdf; x7b; xbf; x5b; x44; xe7; x95; xc0; x5e; x5f; x57; x82; x82; xfe; xc7; x69; xbd; xd2; x6a; x2b; xbd; xc8; xe7; xe0; x53; xd0; x5f; xd5; xe8; x8f] [x00; x00; x00; x00; x00; x00; x00; x00; x00; x00; x00; x00; x00; x00; x00; x00; x00; x00; x00; x00; x00; x00; x00; x00; x00; x00; x00; x00; x00; x00; x00; x00; x00; x00; x01; x0a; x13; x57; x5d; x8c; x69; x46; x04; xe2; x39; xc2; xce; x21; x26; xba; x26; x13; xc0; xf2; xf3; x6a; x62; x5c; x6f; xcf; x12; xca; x1f; xe2; x30; x6b] (FValue, P_521)) ].
Proof. vm_compute. reflexivity. Qed.

(** tests/test_converters.py:342-347 *)
Example test_cose_okp_public_key :
  [ through_cose (OKPKey {| kb_kty := (FValue, KT_OKP); kb_kid := None; kb_alg := (Some (FValue, ES256)); kb_key_ops := None; kb_base_IV := None |} (FValue, ED25519) [x4d; x93; x0c; xf1; x0d; xf7; x22; xdc; x2f; xf0; x31; x41; xc9; xd1; x7b; xc2; xf4; xa2; xe0; x3b; x22; x6b; xbd; x35; x31; xb5; x36; x64; x38; x2c; x01; xdd]);
    through_cose (OKPKey {| kb_kty := (FValue, KT_OKP); kb_kid := None; kb_alg := (Some (FValue, ES256)); kb_key_ops := None; kb_base_IV := None |} (FValue, ED448) [x78; x2e; x9d; xf9; x1f; xdb; x98; xc8; x14; x0e; x8d; xf4; xe0; x70; x89; xa4; xf4; xe2; x1c; x89; x58; xe0; xe9; x97; x5d; xa4; xcb; xd3; xcb; xf4; x70; x9c; x08; x20; x4b; xfc; x3b; xb8; x84; x9e; x9b; x46; x36; x46; xe9; x13; xe4; xf0; xa6; xbe; x40; x07; x67; x89; x21; xec; x91]) ]
  = [ Ok (OKPKey {| kb_kty := (FValue, KT_OKP); kb_kid := None; kb_alg := (Some (FValue, ES256)); kb_key_ops := None; kb_base_IV := None |} (FValue, ED25519) [x4d; x93; x0c; xf1; x0d; xf7; x22; xdc; x2f; xf0; x31; x41; xc9; xd1; x7b; xc2; xf4; xa2; xe0; x3b; x22; x6b; xbd; x35; x31; xb5; x36; x64; x38; x2c; x01; xdd]);
    Ok (OKPKey {| kb_kty := (FValue, KT_OKP); kb_kid := None; kb_alg := (Some (FValue, ES256)); kb_key_ops := None; kb_base_IV := None |} (FValue, ED448) [x78; x2e; x9d; xf9; x1f; xdb; x98; xc8; x14; x0e; x8d; xf4; xe0; x70; x89; xa4; xf4; xe2; x1c; x89; x58; xe0; xe9; x97; x5d; xa4; xcb; xd3; xcb; xf4; x70; x9c; x08; x20; x4b; xfc; x3b; xb8; x84; x9e; x9b; x46; x36; x46; xe9; x13; xe4; xf0; xa6; xbe; x40; x07; x67; x89; x21; xec; x91]) ].
Proof. vm_compute. reflexivity. Qed.

(** ** /repo/tests/test_verifiers.py *)


(** tests/test_verifiers.py:17-53, with every 16th of the altered signatures *)
Example test_verify_ec2 :
  forallb (fun b : bool => b)
  [verify_case (EC2Key {| kb_kty := (FValue, KT_EC2); kb_kid := None; kb_alg := (Some (FValue, ES256)); kb_key_ops := None; kb_base_IV := None |} [x00; x2c; x59; x7b; xb1; x03; x92; x48; x80; x7c; x17; x71; xf6; x27; x36; xec; xb9; x91; x06; xc2; x44; x12; x06; x30; xa5; x87; x2d; x74; x03; x10; xce; x00] [x00; xbb; x6a; x54; x72; x86; x6a; x7d; xe3; x2b; x72; x5d; xed; x8a; x97; xd1; x92; xa4; xbc; x59; xb0; x36; xb2; x0f; xb2; x1b; xbe; xdf; xa3; x30; xc1; xb6] (FValue, P_256)) [x44; x20; x82; x3c; xfd; xe6; xf1; xc2; x6b; x30; xf9; x0e; xc7; xdd; x01; xe4; x88; x75; x34; xa2; x0f; x0b; x0d; x04; xc3; x6e; xd8; x0e; x71; xe0; xfd; x77; xb0; x76; x70; xeb; x94; x0b; xd5; x33; x5f; x97; x3d; xaa; xd8; x61; x9b; x91; xff; xc9; x11; xf5; x7c; xce; xd4; x58; xbb; xbf; x2c; xe0; x37; x53; xc9; xbd; xfa; x0f; xf0; x16; x9d; xc9; x57; x56; x74; x06; x66; x76; xcf; xb0; xb4; xeb; x89; x02; xc4; x42; x69; xda; x1c; xf6; xba; x66; xd3; xf8; xb6; xd4; xb1; x00; xa9; xea; x0e; x75] [x00; x00; x00; x00; x00; x00; x00; x00; x00; x00; x00; x00; x00; x00; x00; x00; x00; x00; x00; x00; x00; x00; x00; x00; x9f; x40; xae; x68; x5a; xe2; xb6; x03] [[x00; x00; x00; x00; x00; x00; x00; x00; x00; x00; x00; x00; x00; x00; x00; x00; x00; x00; x00; x00; x00; x00; x00; x00; x9f; x40; xae; x68; x5a; xe2; xb6; x01; x00; x00; x00; x00; x00; x00; x00; x00; x00; x00; x00; x00; x00; x00; x00; x00; x00; x00; x00; x00; x00; x00; x00; x9f; x40; xae; x68; x5a; xe2; xb6; x03]; [x00; x00; x00; x00; x00; x00; x00; x00; x00; x00; x00; x00; x00; x00; x00; x01; x00; x00; x00; x00; x00; x00; x00; x9f; x40; xae; x68; x5a; xe2; xb6; x03]];
    verify_case (EC2Key {| kb_kty := (FValue, KT_EC2); kb_kid := None; kb_alg := (Some (FValue, ES256)); kb_key_ops := None; kb_base_IV := None |} [x00; x59; x76; xd0; xad; xe9; x6e; x53; xdf; xb0; x00; x8e; x96; xca; x43; x71; x57; xff; x76; xe1; x87; x9e; x69; x95; x7f; x94; x35; x43; x9c; x6a; xa5; x6e] [x00; xf0; x37; x36; x0a; xef; x08; x50; xce; x6c; xf6; x51; x1d; xc7; xe6; x4e; x9d; xfc; xba; x4e; x0e; x38; x3e; xea; x2b; x6b; xed; xfd; x30; x1e; x67; x83] (FValue, P_256)) [x1c; x2e; x2b; xb8; x56; x9d; x80; x6c; x12; x51; xdc; xc9; xbe; xe3; x89; x12; x0e; xba; xee; xa3; xc2; xd8; x54; x5a; x78; x76; x0c; x5a; xa6; x58; x45; xb8; x5d; xe4; xd4; xba; xb5; xb9; xe4; x52; xcc; xec; x7f; xfa; x8e; xff; xb5; xe8; xec; xb3; xe9; xf9; x71; xa6; x55; x89; xf5; x9e; x9b; xd0; x9f; x6a; xfa; xbb; x26; xae; x04; x61; x36; x1e; x19; x8b; x74; x36; x45; x88; x7d; x6b; x1e; xd8; x10; x1d; xb9; xb8; x58; x7f; x0c; x2a; x3a; x22; x0c; x14; x0a; xbf; x82; x41; x50; x5e; x00; xc5] [x00; x00; x00; x00; x00; x00; x00; x00; x00; x00; x00; x00; x00; x00; x00; x00; x00; x00; x00; x00; x00; x00; x00; x00; x79; xd2; x6f; x35; xac; x69; x5e; x34] [[x00; x00; x00; x00; x00; x00; x00; x00; x00; x00; x00; x00; x00; x00; x00; x00; x00; x00; x00; x00; x00; x00; x00; x00; x79; xd2; x6f; x35; xac; x69; x5e; x01; x00; x00; x00; x00; x00; x00; x00; x00; x00; x00; x00; x00; x00; x00; x00; x00; x00; x00; x00; x00; x00; x00; x00; x79; xd2; x6f; x35; xac; x69; x5e; x34]; [x00; x00; x00; x00; x00; x00; x00; x00; x00; x00; x00; x00; x00; x00; x00; x01; x00; x00; x00; x00; x00; x00; x00; x79; xd2; x6f; x35; xac; x69; x5e; x34]];
    verify_case (EC2Key {| kb_kty := (FValue, KT_EC2); kb_kid := None; kb_alg := (Some (FValue, ES256)); kb_key_ops := None; kb_base_IV := None |} [x02; x49; x8c; xb6; x22; x7b; x79; x50; x9d; x51; x9d; x95; x44; x4e; x54; x26; x6f; x70; x2e; xd6; x90; x0d; xfb; x69; xd7; x22; x9d; x15; xb0; xa7; x1e; xf7] [x00; x74; x70; x5a; x43; xcd; x65; x9d; x98; x94; x21; x17; xdb; x28; xc2; x86; x11; xce; x71; xb2; x3f; x84; xce; x57; xcf; xf3; x46; xd5; x93; xe6; xfc; xec] (FValue, P_256)) [x79; x42; xbd; xf2; x21; x06; xf0; x84; x77; x62; xf0; xf3; xcb; x4d; x76; x4d; xc7; x07; x20; x51; x15; x9a; x0f; x89; xf2; xc6; xda; xca; xe3; x44; xbb; x31; x12; x45; xfd; x6f; x84; xdf; x9a; xd7; xc5; xb3; xd0; x76; xac; x0e; x8f; x53; xa7; x35; x6c; x88; x91; x3f; x20; xf6; xf7; x2d; xb0; x22; xd2; x4d; x0a; x96; xda; xd4; x3c; x16; x17; xc1; xa9; x8e; x78; x12; x9e; x03; x27; x37; x10; x65; xd0; x95; x86; x4f; x15; xad; xa0; xb8; x46; xc1; xc0; xeb; xc5; x34; x8a; xdc; x79; x9a; xdf; x84] [x00; x00; x00; x00; x00; x00; x00; x00; x00; x00; x00; x00; x00; x00; x00; x00; x00; x00; x00; x00; x00; x00; x00; x00; xa7; x65; xae; xe8; xc7; xd0; xea; x9c] [[x00; x00; x00; x00; x00; x00; x00; x00; x00; x00; x00; x00; x00; x00; x00; x00; x00; x00; x00; x00; x00; x00; x00; x00; xa7; x65; xae; xe8; xc7; xd0; xea; x01; x00; x00; x00; x00; x00; x00; x00; x00; x00; x00; x00; x00; x00; x00; x00; x00; x00; x00; x00; x00; x00; x00; x00; xa7; x65; xae; xe8; xc7; xd0; xea; x9c]; [x00; x00; x00; x00; x00; x00; x00; x00; x00; x00; x00; x00; x00; x00; x00; x01; x00; x00; x00; x00; x00; x00; x00; xa7; x65; xae; xe8; xc7; xd0; xea; x9c]];
    verify_case (EC2Key {| kb_kty := (FValue, KT_EC2); kb_kid := None; kb_alg := (Some (FValue, ES256)); kb_key_ops := None; kb_base_IV := None |} [x01; xb7; xe1; x89; x2f; x6d; x56; x64; x11; x61; xa4; x6c; xcf; x21; x53; x8b; xd7; x2b; xb8; xfa; x6f; xbf; x93; xad; x6c; x02; x84; xe9; x79; x80; x35; x8d] [x01; x0f; xfa; xe4; xcc; x58; x4a; xf5; x35; x63; x4c; x09; xe5; xef; x78; xa7; xfa; x44; x95; xf0; xfe; xff; x27; x61; x4a; x89; xdf; xb2; xb3; x8b; x56; x78] (FValue, P_256)) [x78; x9b; x34; xca; xf5; x4f; x2e; x22; x0a; xcd; x94; x1e; x71; xb8; x8d; x58; x36; x86; x6d; x0d; x85; x8b; x63; x54; x9e; x94; xbe; x2c; xac; xc6; x7f; x5b; x7e; xf2; x8f; x2d; x99; x03; x95; x9f; x63; xd3; xd8; x93; xdc; xe7; x52; x77; x9c; x84; x16; x29; x17; xec; x8f; xf1; xaf; x4a; x64; x22; xd3; x67; xe1; x8d; x5e; xb6; xdf; xa4; x65; xa5; x33; x1f; x75; x8e; x79; x3e; xa9; x5a; x94; xeb; x0d; x15; xb6; x2a; x92; xa7; x09; xa5; x93; xa4; x4e; xd2; x27; x96; x62; xe3; x95; x45; x80; xc3] [x00; x00; x00; x00; x00; x00; x00; x00; x00; x00; x00; x00; x00; x00; x00; x00; x00; x00; x00; x00; x00; x00; x00; x00; x1f; x87; x54; xf5; x0b; x11; x1c; x8e] [[x00; x00; x00; x00; x00; x00; x00; x00; x00; x00; x00; x00; x00; x00; x00; x00; x00; x00; x00; x00; x00; x00; x00; x00; x1f; x87; x54; xf5; x0b; x11; x1c; x01; x00; x00; x00; x00; x00; x00; x00; x00; x00; x00; x00; x00; x00; x00; x00; x00; x00; x00; x00; x00; x00; x00; x00; x1f; x87; x54; xf5; x0b; x11; x1c; x8e]; [x00; x00; x00; x00; x00; x00; x00; x00; x00; x00; x00; x00; x00; x00; x00; x01; x00; x00; x00; x00; x00; x00; x00; x1f; x87; x54; xf5; x0b; x11; x1c; x8e]];
    verify_case (EC2Key {| kb_kty := (FValue, KT_EC2); kb_kid := None; kb_alg := (Some (FValue, ES256)); kb_key_ops := None; kb_base_IV := None |} [x03; x0f; x77; x99; xc4; xa6; x71; xbc; xc9; x99; xfc; x8c; x08; xf6; x08; xbe; xa9; xa4; xa8; xa0; x61; x6b; xaa; x2d; xa2; xf9; x54; x94; xb0; x86; x47; xca] [x03; xf2; x1a; x1b; xdb; x6e; x8e; x54; x3b; x4a; x70; x42; x21; xbc; x49; xba; x06; x38; xfb; x7d; xdd; x70; xa9; x35; x89; x09; x6c; x46; x75; x01; xf8; xe0] (FValue, P_256)) [x82; xb7; x0e; xee; x7f; x1a; x50; x39; xbe; xf0; x7e; xc2; x34; x7f; x06; x6e; xd0; x8f; x5d; xc7; x51; x24; x47; xe3; x40; x43; x00; x02; x6b; x6e; x54; x55; x94; xa0; x65; x68; x5d; x64; xc4; x98; x0b; xb8; xd4; x54; x4a; x87; x21; xa9; x9a; x01; xad; x21; x9e; xb5; x9c; xf6; xa1; x5e; xf6; xf1; x5a; x1d; x83; x0b; xb7; xce; x09; xd6; xbb; xc0; x04; xe7; x17; x5c; x64; x3c; x7d; xec; xb0; xb5; x80; xec; x37; xbc; x97; x12; xdd; x2e; x6a; xae; xb9; x4b; xae; x8d; x2f; x9f; xa2; x9c; x5a; x28] [x00; x00; x00; x00; x00; x00; x00; x00; x00; x00; x00; x00; x00; x00; x00; x00; x00; x00; x00; x00; x00; x00; x00; x00; x81; x05; xbb; xeb; x8f; x57; x68; x2b] [[x00; x00; x00; x00; x00; x00; x00; x00; x00; x00; x00; x00; x00; x00; x00; x00; x00; x00; x00; x00; x00; x00; x00; x00; x81; x05; xbb; xeb; x8f; x57; x68; x01; x00; x00; x00; x00; x00; x00; x00; x00; x00; x00; x00; x00; x00; x00; x00; x00; x00; x00; x00; x00; x00; x00; x00; x81; x05; xbb; xeb; x8f; x57; x68; x2b]; [x00; x00; x00; x00; x00; x00; x00; x00; x00; x00; x00; x00; x00; x00; x00; x01; x00; x00; x00; x00; x00; x00; x00; x81; x05; xbb; xeb; x8f; x57; x68; x2b]];
    verify_case (EC2Key {| kb_kty := (FValue, KT_EC2); kb_kid := None; kb_alg := (Some (FValue, ES384)); kb_key_ops := None; kb_base_IV := None |} [x00; x00; x00; x00; x00; x00; x00; x00; x00; x00; x00; x00; x00; x00; x00; x00; x01; x9b; x73; x5a; x6f; xa7; xd6; x30; x9f; xf4; x25; x79; xb3; x87; x01; x7c; x4b; xc9; x15; x81; xe2; xd9; x39; xdb; x19; x5d; xd4; xa5; xa5; x3b; x26; x16] [x00; x00; x00; x00; x00; x00; x00; x00; x00; x00; x00; x00; x00; x00; x00; x00; x00; xed; x72; x80; x93; x2f; x65; xc2; x7d; xde; xaa; x3c; x3e; x13; x8a; xf6; x3f; xb3; xa1; xa1; x19; x2d; xf0; x13; x55; x7d; xbf; x69; x84; x19; xf7; xf6] (FValue, P_384)) [x44; x20; x82; x3c; xfd; xe6; xf1; xc2; x6b; x30; xf9; x0e; xc7; xdd; x01; xe4; x88; x75; x34; xa2; x0f; x0b; x0d; x04; xc3; x6e; xd8; x0e; x71; xe0; xfd; x77; xb0; x76; x70; xeb; x94; x0b; xd5; x33; x5f; x97; x3d; xaa; xd8; x61; x9b; x91; xff; xc9; x11; xf5; x7c; xce; xd4; x58; xbb; xbf; x2c; xe0; x37; x53; xc9; xbd; xfa; x0f; xf0; x16; x9d; xc9; x57; x56; x74; x06; x66; x76; xcf; xb0; xb4; xeb; x89; x02; xc4; x42; x69; xda; x1c; xf6; xba; x66; xd3; xf8; xb6; xd4; xb1; x00; xa9; xea; x0e; x75] [x00; x00; x00; x00; x00; x00; x00; x00; x00; x00; x00; x00; x00; x00; x00; x00; x00; x00; x00; x00; x00; x00; x00; x00; x8c; x67; x34; x98; xc7; xf3; x0a; x57] [[x00; x00; x00; x00; x00; x00; x00; x00; x00; x00; x00; x00; x00; x00; x00; x00; x00; x00; x00; x00; x00; x00; x00; x00; x8c; x67; x34; x98; xc7; xf3; x0a; x01; x00; x00; x00; x00; x00; x00; x00; x00; x00; x00; x00; x00; x00; x00; x00; x00; x00; x00; x00; x00; x00; x00; x00; x8c; x67; x34; x98; xc7; xf3; x0a; x57]; [x00; x00; x00; x00; x00; x00; x00; x00; x00; x00; x00; x00; x00; x00; x00; x01; x00; x00; x00; x00; x00; x00; x00; x8c; x67; x34; x98; xc7; xf3; x0a; x57]];
    verify_case (EC2Key {| kb_kty := (FValue, KT_EC2); kb_kid := None; kb_alg := (Some (FValue, ES384)); kb_key_ops := None; kb_base_IV := None |} [x00; x00; x00; x00; x00; x00; x00; x00; x00; x00; x00; x00; x00; x00; x00; x00; x03; x67; xf9; xe4; x24; x38; x04; x74; xde; x67; x6b; xd6; xf2; x02; x71; x53; x66; x37; xf6; x5e; xa0; x2c; xa7; x49; x06; x19; x6a; x66; xc1; x3f; x69; xd0] [x00; x00; x00; x00; x00; x00; x00; x00; x00; x00; x00; x00; x00; x00; x00; x00; x00; xc3; x56; x01; xa3; x76; x92; x19; x6e; x17; xb1; x54; x9d; xc2; xe3; x3e; x63; x7d; x8f; xe8; x4a; xdf; xec; xf0; x0f; x86; xce; xf3; x20; x90; x6a; x11] (FValue, P_384)) [x1c; x2e; x2b; xb8; x56; x9d; x80; x6c; x12; x51; xdc; xc9; xbe; xe3; x89; x12; x0e; xba; xee; xa3; xc2; xd8; x54; x5a; x78; x76; x0c; x5a; xa6; x58; x45; xb8; x5d; xe4; xd4; xba; xb5; xb9; xe4; x52; xcc; xec; x7f; xfa; x8e; xff; xb5; xe8; xec; xb3; xe9; xf9; x71; xa6; x55; x89; xf5; x9e; x9b; xd0; x9f; x6a; xfa; xbb; x26; xae; x04; x61; x36; x1e; x19; x8b; x74; x36; x45; x88; x7d; x6b; x1e; xd8; x10; x1d; xb9; xb8; x58; x7f; x0c; x2a; x3a; x22; x0c; x14; x0a; xbf; x82; x41; x50; x5e; x00; xc5] [x00; x00; x00; x00; x00; x00; x00; x00; x00; x00; x00; x00; x00; x00; x00; x00; x00; x00; x00; x00; x00; x00; x00; x00; x15; xf2; x14; xf0; x59; xfd; x17; xc7] [[x00; x00; x00; x00; x00; x00; x00; x00; x00; x00; x00; x00; x00; x00; x00; x00; x00; x00; x00; x00; x00; x00; x00; x00; x15; xf2; x14; xf0; x59; xfd; x17; x01; x00; x00; x00; x00; x00; x00; x00; x00; x00; x00; x00; x00; x00; x00; x00; x00; x00; x00; x00; x00; x00; x00; x00; x15; xf2; x14; xf0; x59; xfd; x17; xc7]; [x00; x00; x00; x00; x00; x00; x00; x00; x00; x00; x00; x00; x00; x00; x00; x01; x00; x00; x00; x00; x00; x00; x00; x15; xf2; x14; xf0; x59; xfd; x17; xc7]];
    verify_case (EC2Key {| kb_kty := (FValue, KT_EC2); kb_kid := None; kb_alg := (Some (FValue, ES384)); kb_key_ops := None; kb_base_IV := None |} [x00; x00; x00; x00; x00; x00; x00; x00; x00; x00; x00; x00; x00; x00; x00; x00; x02; xf7; x4d; xa6; xc5; x30; xff; xe1; x18; xd8; xed; x81; xe9; x11; x34; x68; xbb; xb5; x95; xc3; xa9; x39; xd7; x57; x8f; xc0; x1f; xd4; x06; x44; xb9; x2a] [x00; x00; x00; x00; x00; x00; x00; x00; x00; x00; x00; x00; x00; x00; x00; x00; x00; xad; x67; x8a; xcd; x96; xe6; xdd; x23; x95; x30; xeb; x48; xba; x31; xdb; x18; x3f; x9f; x8e; xc0; x11; xec; x72; x43; xd1; xaf; xa0; x74; x45; x2a; x44] (FValue, P_384)) [x79; x42; xbd; xf2; x21; x06; xf0; x84; x77; x62; xf0; xf3; xcb; x4d; x76; x4d; xc7; x07; x20; x51; x15; x9a; x0f; x89; xf2; xc6; xda; xca; xe3; x44; xbb; x31; x12; x45; xfd; x6f; x84; xdf; x9a; xd7; xc5; xb3; xd0; x76; xac; x0e; x8f; x53; xa7; x35; x6c; x88; x91; x3f; x20; xf6; xf7; x2d; xb0; x22; xd2; x4d; x0a; x96; xda; xd4; x3c; x16; x17; xc1; xa9; x8e; x78; x12; x9e; x03; x27; x37; x10; x65; xd0; x95; x86; x4f; x15; xad; xa0; xb8; x46; xc1; xc0; xeb; xc5; x34; x8a; xdc; x79; x9a; xdf; x84] [x00; x00; x00; x00; x00; x00; x00; x00; x00; x00; x00; x00; x00; x00; x00; x00; x00; x00; x00; x00; x00; x00; x00; x00; x31; xf8; x19; xc6; xcc; x2a; x34; x7e] [[x00; x00; x00; x00; x00; x00; x00; x00; x00; x00; x00; x00; x00; x00; x00; x00; x00; x00; x00; x00; x00; x00; x00; x00; x31; xf8; x19; xc6; xcc; x2a; x34; x01; x00; x00; x00; x00; x00; x00; x00; x00; x00; x00; x00; x00; x00; x00; x00; x00; x00; x00; x00; x00; x00; x00; x00; x31; xf8; x19; xc6; xcc; x2a; x34; x7e]; [x00; x00; x00; x00; x00; x00; x00; x00; x00; x00; x00; x00; x00; x00; x00; x01; x00; x00; x00; x00; x00; x00; x00; x31; xf8; x19; xc6; xcc; x2a; x34; x7e]];
    verify_case (EC2Key {| kb_kty := (FValue, KT_EC2); kb_kid := None; kb_alg := (Some (FValue, ES384)); kb_key_ops := None; kb_base_IV := None |} [x00; x00; x00; x00; x00; x00; x00; x00; x00; x00; x00; x00; x00; x00; x00; x00; x00; x7e; xab; x92; xcd; xa0; xc2; xf4; x60; x40; xbc; x3b; x07; x34; x63; x24; x82; x67; x65; x7a; x3b; xa6; xd3; xf2; xc5; x84; xe7; xe3; xd7; x61; x4a; x30] [x00; x00; x00; x00; x00; x00; x00; x00; x00; x00; x00; x00; x00; x00; x00; x00; x03; xa2; x64; x80; xe6; xaf; x3e; x0b; x0a; x27; xd1; x98; xac; x39; xb5; x2b; x3f; xf6; xa6; x4f; x15; x83; xc9; x96; x99; xc8; xba; x2f; x69; x19; x6b; xd2] (FValue, P_384)) [x78; x9b; x34; xca; xf5; x4f; x2e; x22; x0a; xcd; x94; x1e; x71; xb8; x8d; x58; x36; x86; x6d; x0d; x85; x8b; x63; x54; x9e; x94; xbe; x2c; xac; xc6; x7f; x5b; x7e; xf2; x8f; x2d; x99; x03; x95; x9f; x63; xd3; xd8; x93; xdc; xe7; x52; x77; x9c; x84; x16; x29; x17; xec; x8f; xf1; xaf; x4a; x64; x22; xd3; x67; xe1; x8d; x5e; xb6; xdf; xa4; x65; xa5; x33; x1f; x75; x8e; x79; x3e; xa9; x5a; x94; xeb; x0d; x15; xb6; x2a; x92; xa7; x09; xa5; x93; xa4; x4e; xd2; x27; x96; x62; xe3; x95; x45; x80; xc3] [x00; x00; x00; x00; x00; x00; x00; x00; x00; x00; x00; x00; x00; x00; x00; x00; x00; x00; x00; x00; x00; x00; x00; x00; x01; x91; xba; x25; xa4; x97; x8a; x78] [[x00; x00; x00; x00; x00; x00; x00; x00; x00; x00; x00; x00; x00; x00; x00; x00; x00; x00; x00; x00; x00; x00; x00; x00; x01; x91; xba; x25; xa4; x97; x8a; x01; x00; x00; x00; x00; x00; x00; x00; x00; x00; x00; x00; x00; x00; x00; x00; x00; x00; x00; x00; x00; x00; x00; x00; x01; x91; xba; x25; xa4; x97; x8a; x78]; [x00; x00; x00; x00; x00; x00; x00; x00; x00; x00; x00; x00; x00; x00; x00; x01; x00; x00; x00; x00; x00; x00; x00; x01; x91; xba; x25; xa4; x97; x8a; x78]];
    verify_case (EC2Key {| kb_kty := (FValue, KT_EC2); kb_kid := None; kb_alg := (Some (FValue, ES384)); kb_key_ops := None; kb_base_IV := None |} [x00; x00; x00; x00; x00; x00; x00; x00; x00; x00; x00; x00; x00; x00; x00; x00; x00; x8b; xfd; x42; x0a; xdd; x8d; x85; xc4; xf8; x3b; x9a; x58; xfd; x1e; xc1; x0a; x21; xbd; xea; x9c; x5c; xda; x72; x4b; x29; x8e; x98; x15; x73; x18; x72] [x00; x00; x00; x00; x00; x00; x00; x00; x00; x00; x00; x00; x00; x00; x00; x00; x00; xb9; xe3; xde; x4e; xd1; x63; x7e; x5a; xbc; x2c; x6c; x4e; x84; x27; x53; x95; xae; x53; x91; x0b; x9b; xc6; x39; xd3; xe8; xd6; xa6; x12; xbe; x96; x1c] (FValue, P_384)) [x82; xb7; x0e; xee; x7f; x1a; x50; x39; xbe; xf0; x7e; xc2; x34; x7f; x06; x6e; xd0; x8f; x5d; xc7; x51; x24; x47; xe3; x40; x43; x00; x02; x6b; x6e; x54; x55; x94; xa0; x65; x68; x5d; x64; xc4; x98; x0b; xb8; xd4; x54; x4a; x87; x21; xa9; x9a; x01; xad; x21; x9e; xb5; x9c; xf6; xa1; x5e; xf6; xf1; x5a; x1d; x83; x0b; xb7; xce; x09; xd6; xbb; xc0; x04; xe7; x17; x5c; x64; x3c; x7d; xec; xb0; xb5; x80; xec; x37; xbc; x97; x12; xdd; x2e; x6a; xae; xb9; x4b; xae; x8d; x2f; x9f; xa2; x9c; x5a; x28] [x00; x00; x00; x00; x00; x00; x00; x00; x00; x00; x00; x00; x00; x00; x00; x00; x00; x00; x00; x00; x00; x00; x00; x00; x03; xa1; xc0; xe9; x80; xd9; x5d; x0c] [[x00; x00; x00; x00; x00; x00; x00; x00; x00; x00; x00; x00; x00; x00; x00; x00; x00; x00; x00; x00; x00; x00; x00; x00; x03; xa1; xc0; xe9; x80; xd9; x5d; x01; x00; x00; x00; x00; x00; x00; x00; x00; x00; x00; x00; x00; x00; x00; x00; x00; x00; x00; x00; x00; x00; x00; x00; x03; xa1; xc0; xe9; x80; xd9; x5d; x0c]; [x00; x00; x00; x00; x00; x00; x00; x00; x00; x00; x00; x00; x00; x00; x00; x01; x00; x00; x00; x00; x00; x00; x00; x03; xa1; xc0; xe9; x80; xd9; x5d; x0c]];
    verify_case (EC2Key {| kb_kty := (FValue, KT_EC2); kb_kid := None; kb_alg := (Some (FValue, ES512)); kb_key_ops := None; kb_base_IV := None |} [x00; x00; x00; x00; x00; x00; x00; x00; x00; x00; x00; x00; x00; x00; x00; x00; x00; x00; x00; x00; x00; x00; x00; x00; x00; x00; x00; x00; x00; x00; x00; x00; x00; x00; x02; x9e; x5e; x06; x3f; xfa; x01; xb0; x86; xb7; x19; xc0; xe0; x6c; xb6; xe6; x5a; xed; xe5; x45; xa0; xad; x9b; xf0; xe3; x5c; xe4; x16; x2b; xcf; x49; x2e] [x00; x00; x00; x00; x00; x00; x00; x00; x00; x00; x00; x00; x00; x00; x00; x00; x00; x00; x00; x00; x00; x00; x00; x00; x00; x00; x00; x00; x00; x00; x00; x00; x00; x00; x01; xbd; xd6; x3c; xb3; x96; x93; x72; xc5; xb4; x2d; x6a; xa2; x67; x41; xa7; x3f; x90; x69; x10; xfc; xff; x9a; xfa; x3b; x90; x95; xd8; x9a; x5e; xd1; x58] (FValue, P_521)) [x44; x20; x82; x3c; xfd; xe6; xf1; xc2; x6b; x30; xf9; x0e; xc7; xdd; x01; xe4; x88; x75; x34; xa2; x0f; x0b; x0d; x04; xc3; x6e; xd8; x0e; x71; xe0; xfd; x77; xb0; x76; x70; xeb; x94; x0b; xd5; x33; x5f; x97; x3d; xaa; xd8; x61; x9b; x91; xff; xc9; x11; xf5; x7c; xce; xd4; x58; xbb; xbf; x2c; xe0; x37; x53; xc9; xbd; xfa; x0f; xf0; x16; x9d; xc9; x57; x56; x74; x06; x66; x76; xcf; xb0; xb4; xeb; x89; x02; xc4; x42; x69; xda; x1c; xf6; xba; x66; xd3; xf8; xb6; xd4; xb1; x00; xa9; xea; x0e; x75] [x00; x00; x00; x00; x00; x00; x00; x00; x00; x00; x00; x00; x00; x00; x00; x00; x00; x00; x00; x00; x00; x00; x00; x00; xdc; x92; xc6; x2a; x76; xef; x3c; x45] [[x00; x00; x00; x00; x00; x00; x00; x00; x00; x00; x00; x00; x00; x00; x00; x00; x00; x00; x00; x00; x00; x00; x00; x00; xdc; x92; xc6; x2a; x76; xef; x3c; x01; x00; x00; x00; x00; x00; x00; x00; x00; x00; x00; x00; x00; x00; x00; x00; x00; x00; x00; x00; x00; x00; x00; x00; xdc; x92; xc6; x2a; x76; xef; x3c; x45]; [x00; x00; x00; x00; x00; x00; x00; x00; x00; x00; x00; x00; x00; x00; x00; x01; x00; x00; x00; x00; x00; x00; x00; xdc; x92; xc6; x2a; x76; xef; x3c; x45]];
    verify_case (EC2Key {| kb_kty := (FValue, KT_EC2); kb_kid := None; kb_alg := (Some (FValue, ES512)); kb_key_ops := None; kb_base_IV := None |} [x00; x00; x00; x00; x00; x00; x00; x00; x00; x00; x00; x00; x00; x00; x00; x00; x00; x00; x00; x00; x00; x00; x00; x00; x00; x00; x00; x00; x00; x00; x00; x00; x00; x00; x00; xad; x08; x7b; x29; x46; xb9; xa3; xdc; x6e; x03; x23; x3d; xde; x99; x82; xf8; xe8; x53; xa3; x25; xc6; x08; xfe; x3a; xee; x6d; x30; xc8; xf0; x1c; xb6] [x00; x00; x00; x00; x00; x00; x00; x00; x00; x00; x00; x00; x00; x00; x00; x00; x00; x00; x00; x00; x00; x00; x00; x00; x00; x00; x00; x00; x00; x00; x00; x00; x00; x00; x03; x16; xad; xe7; x50; xf2; x27; x9d; x12; xf2; xec; x76; x9f; x0f; x72; x29; xd6; x8b; x43; x99; xda; xc7; x96; xed; xcb; x95; xeb; x79; xea; x0c; x21; xe0] (FValue, P_521)) [x1c; x2e; x2b; xb8; x56; x9d; x80; x6c; x12; x51; xdc; xc9; xbe; xe3; x89; x12; x0e; xba; xee; xa3; xc2; xd8; x54; x5a; x78; x76; x0c; x5a; xa6; x58; x45; xb8; x5d; xe4; xd4; xba; xb5; xb9; xe4; x52; xcc; xec; x7f; xfa; x8e; xff; xb5; xe8; xec; xb3; xe9; xf9; x71; xa6; x55; x89; xf5; x9e; x9b; xd0; x9f; x6a; xfa; xbb; x26; xae; x04; x61; x36; x1e; x19; x8b; x74; x36; x45; x88; x7d; x6b; x1e; xd8; x10; x1d; xb9; xb8; x58; x7f; x0c; x2a; x3a; x22; x0c; x14; x0a; xbf; x82; x41; x50; x5e; x00; xc5] [x00; x00; x00; x00; x00; x00; x00; x00; x00; x00; x00; x00; x00; x00; x00; x00; x00; x00; x00; x00; x00; x00; x00; x00; xf9; x38; x55; xb4; xa1; xeb; x04; x50] [[x00; x00; x00; x00; x00; x00; x00; x00; x00; x00; x00; x00; x00; x00; x00; x00; x00; x00; x00; x00; x00; x00; x00; x00; xf9; x38; x55; xb4; xa1; xeb; x04; x01; x00; x00; x00; x00; x00; x00; x00; x00; x00; x00; x00; x00; x00; x00; x00; x00; x00; x00; x00; x00; x00; x00; x00; xf9; x38; x55; xb4; xa1; xeb; x04; x50]; [x00; x00; x00; x00; x00; x00; x00; x00; x00; x00; x00; x00; x00; x00; x00; x01; x00; x00; x00; x00; x00; x00; x00; xf9; x38; x55; xb4; xa1; xeb; x04; x50]];
    verify_case (EC2Key {| kb_kty := (FValue, KT_EC2); kb_kid := None; kb_alg := (Some (FValue, ES512)); kb_key_ops := None; kb_base_IV := None |} [x00; x00; x00; x00; x00; x00; x00; x00; x00; x00; x00; x00; x00; x00; x00; x00; x00; x00; x00; x00; x00; x00; x00; x00; x00; x00; x00; x00; x00; x00; x00; x00; x00; x00; x03; x34; xad; x34; x37; x4c; x22; xd2; x72; x1a; xc1; xad; x09; xe7; x06; x60; x28; x88; x44; xb6; x36; x05; xc5; xcd; xb4; x91; x7f; xe0; xe8; x89; x66; xe3] [x00; x00; x00; x00; x00; x00; x00; x00; x00; x00; x00; x00; x00; x00; x00; x00; x00; x00; x00; x00; x00; x00; x00; x00; x00; x00; x00; x00; x00; x00; x00; x00; x00; x00; x02; xb1; x25; x61; x72; x22; xca; xc7; xa6; xd5; xcc; x3e; xcb; x49; xe5; xea; xfb; xce; xdf; xc4; x82; xf2; xdc; x96; x4a; x28; x19; xea; xa3; x23; x3a; x20] (FValue, P_521)) [x79; x42; xbd; xf2; x21; x06; xf0; x84; x77; x62; xf0; xf3; xcb; x4d; x76; x4d; xc7; x07; x20; x51; x15; x9a; x0f; x89; xf2; xc6; xda; xca; xe3; x44; xbb; x31; x12; x45; xfd; x6f; x84; xdf; x9a; xd7; xc5; xb3; xd0; x76; xac; x0e; x8f; x53; xa7; x35; x6c; x88; x91; x3f; x20; xf6; xf7; x2d; xb0; x22; xd2; x4d; x0a; x96; xda; xd4; x3c; x16; x17; xc1; xa9; x8e; x78; x12; x9e; x03; x27; x37; x10; x65; xd0; x95; x86; x4f; x15; xad; xa0; xb8; x46; xc1; xc0; xeb; xc5; x34; x8a; xdc; x79; x9a; xdf; x84] [x00; x00; x00; x00; x00; x00; x00; x00; x00; x00; x00; x00; x00; x00; x00; x00; x00; x00; x00; x00; x00; x00; x00; x00; x08; x73; x77; x09; xdf; x4e; x33; x36] [[x00; x00; x00; x00; x00; x00; x00; x00; x00; x00; x00; x00; x00; x00; x00; x00; x00; x00; x00; x00; x00; x00; x00; x00; x08; x73; x77; x09; xdf; x4e; x33; x01; x00; x00; x00; x00; x00; x00; x00; x00; x00; x00; x00; x00; x00; x00; x00; x00; x00; x00; x00; x00; x00; x00; x00; x08; x73; x77; x09; xdf; x4e; x33; x36]; [x00; x00; x00; x00; x00; x00; x00; x00; x00; x00; x00; x00; x00; x00; x00; x01; x00; x00; x00; x00; x00; x00; x00; x08; x73; x77; x09; xdf; x4e; x33; x36]];
    verify_case (EC2Key {| kb_kty := (FValue, KT_EC2); kb_kid := None; kb_alg := (Some (FValue, ES512)); kb_key_ops := None; kb_base_IV := None |} [x00; x00; x00; x00; x00; x00; x00; x00; x00; x00; x00; x00; x00; x00; x00; x00; x00; x00; x00; x00; x00; x00; x00; x00; x00; x00; x00; x00; x00; x00; x00; x00; x00; x00; x03; xb5; x63; xa2; x86; x09; x47; x1b; x1e; xac; x51; x69; x3b; x1c; x75; xbd; xd2; xc4; xf8; x43; x12; x09; x46; x18; x11; x8d; x10; x1a; x15; x5b; x33; x2d] [x00; x00; x00; x00; x00; x00; x00; x00; x00; x00; x00; x00; x00; x00; x00; x00; x00; x00; x00; x00; x00; x00; x00; x00; x00; x00; x00; x00; x00; x00; x00; x00; x00; x00; x01; x57; x44; x6c; xf3; xf5; x21; xb3; x99; xd8; x88; x6c; x02; x80; x91; x0b; x75; x58; x33; xfc; x8e; x5e; x56; x02; xd3; xf9; x21; x43; xb6; xf9; x7e; x4a] (FValue, P_521)) [x78; x9b; x34; xca; xf5; x4f; x2e; x22; x0a; xcd; x94; x1e; x71; xb8; x8d; x58; x36; x86; x6d; x0d; x85; x8b; x63; x54; x9e; x94; xbe; x2c; xac; xc6; x7f; x5b; x7e; xf2; x8f; x2d; x99; x03; x95; x9f; x63; xd3; xd8; x93; xdc; xe7; x52; x77; x9c; x84; x16; x29; x17; xec; x8f; xf1; xaf; x4a; x64; x22; xd3; x67; xe1; x8d; x5e; xb6; xdf; xa4; x65; xa5; x33; x1f; x75; x8e; x79; x3e; xa9; x5a; x94; xeb; x0d; x15; xb6; x2a; x92; xa7; x09; xa5; x93; xa4; x4e; xd2; x27; x96; x62; xe3; x95; x45; x80; xc3] [x00; x00; x00; x00; x00; x00; x00; x00; x00; x00; x00; x00; x00; x00; x00; x00; x00; x00; x00; x00; x00; x00; x00; x00; x26; x30; x27; xa7; xea; xfc; x4b; xab] [[x00; x00; x00; x00; x00; x00; x00; x00; x00; x00; x00; x00; x00; x00; x00; x00; x00; x00; x00; x00; x00; x00; x00; x00; x26; x30; x27; xa7; xea; xfc; x4b; x01; x00; x00; x00; x00; x00; x00; x00; x00; x00; x00; x00; x00; x00; x00; x00; x00; x00; x00; x00; x00; x00; x00; x00; x26; x30; x27; xa7; xea; xfc; x4b; xab]; [x00; x00; x00; x00; x00; x00; x00; x00; x00; x00; x00; x00; x00; x00; x00; x01; x00; x00; x00; x00; x00; x00; x00; x26; x30; x27; xa7; xea; xfc; x4b; xab]];
    verify_case (EC2Key {| kb_kty := (FValue, KT_EC2); kb_kid := None; kb_alg := (Some (FValue, ES512)); kb_key_ops := None; kb_base_IV := None |} [x00; x00; x00; x00; x00; x00; x00; x00; x00; x00; x00; x00; x00; x00; x00; x00; x00; x00; x00; x00; x00; x00; x00; x00; x00; x00; x00; x00; x00; x00; x00; x00; x00; x00; x02; x76; x5a; xff; x3e; x4e; xc0; x68; x03; xf9; x4a; x8d; x31; x34; x9f; x5e; x1c; x15; xdb; x09; x8a; x53; xf6; xde; x6e; xc5; x67; xac; x75; x4a; x0b; x24] [x00; x00; x00; x00; x00; x00; x00; x00; x00; x00; x00; x00; x00; x00; x00; x00; x00; x00; x00; x00; x00; x00; x00; x00; x00; x00; x00; x00; x00; x00; x00; x00; x00; x00; x02; x86; x7e; x69; x13; xb0; x85; x89; x34; xcf; x06; xc0; x0a; xda; x09; xbd; x70; xf9; x12; x79; xfa; x3e; xc2; xb5; xda; xde; x06; x58; xc7; xed; xe7; xf4] (FValue, P_521)) [x82; xb7; x0e; xee; x7f; x1a; x50; x39; xbe; xf0; x7e; xc2; x34; x7f; x06; x6e; xd0; x8f; x5d; xc7; x51; x24; x47; xe3; x40; x43; x00; x02; x6b; x6e; x54; x55; x94; xa0; x65; x68; x5d; x64; xc4; x98; x0b; xb8; xd4; x54; x4a; x87; x21; xa9; x9a; x01; xad; x21; x9e; xb5; x9c; xf6; xa1; x5e; xf6; xf1; x5a; x1d; x83; x0b; xb7; xce; x09; xd6; xbb; xc0; x04; xe7; x17; x5c; x64; x3c; x7d; xec; xb0; xb5; x80; xec; x37; xbc; x97; x12; xdd; x2e; x6a; xae; xb9; x4b; xae; x8d; x2f; x9f; xa2; x9c; x5a; x28] [x00; x00; x00; x00; x00; x00; x00; x00; x00; x00; x00; x00; x00; x00; x00; x00; x00; x00; x00; x00; x00; x00; x00; x00; x1b; x8e; x0c; xcf; x53; xc4; xd0; x76] [[x00; x00; x00; x00; x00; x00; x00; x00; x00; x00; x00; x00; x00; x00; x00; x00; x00; x00; x00; x00; x00; x00; x00; x00; x1b; x8e; x0c; xcf; x53; xc4; xd0; x01; x00; x00; x00; x00; x00; x00; x00; x00; x00; x00; x00; x00; x00; x00; x00; x00; x00; x00; x00; x00; x00; x00; x00; x1b; x8e; x0c; xcf; x53; xc4; xd0; x76]; [x00; x00; x00; x00; x00; x00; x00; x00; x00; x00; x00; x00; x00; x00; x00; x01; x00; x00; x00; x00; x00; x00; x00; x1b; x8e; x0c; xcf; x53; xc4; xd0; x76]]] = true.
Proof. vm_compute. reflexivity. Qed.

(** tests/test_verifiers.py:56-88, with every 16th of the altered signatures *)
Example test_verify_okp :
  forallb (fun b : bool => b)
  [verify_case (OKPKey {| kb_kty := (FValue, KT_OKP); kb_kid := None; kb_alg := (Some (FValue, EDDSA)); kb_key_ops := None; kb_base_IV := None |} (FValue, ED25519) [xe7; x9b; x3a; x7e; x38; x62; x0f; x63; x45; x0d; xe1; x0e; x74; xf3; x58; x04; x72; x46; x20; x08; x46; xa4; x2b; x85; x63; xcb; x04; x8f; xb4; x84; xc5; xce]) [x44; x20; x82; x3c; xfd; xe6; xf1; xc2; x6b; x30; xf9; x0e; xc7; xdd; x01; xe4; x88; x75; x34; xa2; x0f; x0b; x0d; x04; xc3; x6e; xd8; x0e; x71; xe0; xfd; x77; xb0; x76; x70; xeb; x94; x0b; xd5; x33; x5f; x97; x3d; xaa; xd8; x61; x9b; x91; xff; xc9; x11; xf5; x7c; xce; xd4; x58; xbb; xbf; x2c; xe0; x37; x53; xc9; xbd; xfa; x0f; xf0; x16; x9d; xc9; x57; x56; x74; x06; x66; x76; xcf; xb0; xb4; xeb; x89; x02; xc4; x42; x69; xda; x1c; xf6; xba; x66; xd3; xf8; xb6; xd4; xb1; x00; xa9; xea; x0e; x75] [x00; x00; x00; x00; x00; x00; x00; x00; x00; x00; x00; x00; x00; x00; x00; x00; x00; x00; x00; x00; x00; x00; x00; x00; x49; x3f; x07; x64; x2b; xca; xf3; xb6] [[x00; x00; x00; x00; x00; x00; x00; x00; x00; x00; x00; x00; x00; x00; x00; x00; x00; x00; x00; x00; x00; x00; x00; x00; x49; x3f; x07; x64; x2b; xca; xf3; x01; x00; x00; x00; x00; x00; x00; x00; x00; x00; x00; x00; x00; x00; x00; x00; x00; x00; x00; x00; x00; x00; x00; x00; x49; x3f; x07; x64; x2b; xca; xf3; xb6]; [x00; x00; x00; x00; x00; x00; x00; x00; x00; x00; x00; x00; x00; x00; x00; x01; x00; x00; x00; x00; x00; x00; x00; x49; x3f; x07; x64; x2b; xca; xf3; xb6]];
    verify_case (OKPKey {| kb_kty := (FValue, KT_OKP); kb_kid := None; kb_alg := (Some (FValue, EDDSA)); kb_key_ops := None; kb_base_IV := None |} (FValue, ED25519) [xee; x8e; x2d; x5c; xf5; xc9; x44; x6a; x0d; x1a; xa2; x4a; x70; xa3; xcb; x14; xd1; xf3; x21; x11; x43; xd2; xc7; x8b; x16; x6f; x63; x9b; xc2; x99; x0b; x88]) [x1c; x2e; x2b; xb8; x56; x9d; x80; x6c; x12; x51; xdc; xc9; xbe; xe3; x89; x12; x0e; xba; xee; xa3; xc2; xd8; x54; x5a; x78; x76; x0c; x5a; xa6; x58; x45; xb8; x5d; xe4; xd4; xba; xb5; xb9; xe4; x52; xcc; xec; x7f; xfa; x8e; xff; xb5; xe8; xec; xb3; xe9; xf9; x71; xa6; x55; x89; xf5; x9e; x9b; xd0; x9f; x6a; xfa; xbb; x26; xae; x04; x61; x36; x1e; x19; x8b; x74; x36; x45; x88; x7d; x6b; x1e; xd8; x10; x1d; xb9; xb8; x58; x7f; x0c; x2a; x3a; x22; x0c; x14; x0a; xbf; x82; x41; x50; x5e; x00; xc5] [x00; x00; x00; x00; x00; x00; x00; x00; x00; x00; x00; x00; x00; x00; x00; x00; x00; x00; x00; x00; x00; x00; x00; x00; xe1; x44; xdc; x8d; xd1; xcb; xff; xdd] [[x00; x00; x00; x00; x00; x00; x00; x00; x00; x00; x00; x00; x00; x00; x00; x00; x00; x00; x00; x00; x00; x00; x00; x00; xe1; x44; xdc; x8d; xd1; xcb; xff; x01; x00; x00; x00; x00; x00; x00; x00; x00; x00; x00; x00; x00; x00; x00; x00; x00; x00; x00; x00; x00; x00; x00; x00; xe1; x44; xdc; x8d; xd1; xcb; xff; xdd]; [x00; x00; x00; x00; x00; x00; x00; x00; x00; x00; x00; x00; x00; x00; x00; x01; x00; x00; x00; x00; x00; x00; x00; xe1; x44; xdc; x8d; xd1; xcb; xff; xdd]];
    verify_case (OKPKey {| kb_kty := (FValue, KT_OKP); kb_kid := None; kb_alg := (Some (FValue, EDDSA)); kb_key_ops := None; kb_base_IV := None |} (FValue, ED25519) [x61; x53; x75; x2d; x6b; xf5; x54; x1a; xce; x90; x07; x4d; x32; x14; xdc; xf3; x59; x6f; xef; x37; xcf; x72; x20; x41; xad; xf3; xfc; xbc; xdd; x7f; xe2; x85]) [x79; x42; xbd; xf2; x21; x06; xf0; x84; x77; x62; xf0; xf3; xcb; x4d; x76; x4d; xc7; x07; x20; x51; x15; x9a; x0f; x89; xf2; xc6; xda; xca; xe3; x44; xbb; x31; x12; x45; xfd; x6f; x84; xdf; x9a; xd7; xc5; xb3; xd0; x76; xac; x0e; x8f; x53; xa7; x35; x6c; x88; x91; x3f; x20; xf6; xf7; x2d; xb0; x22; xd2; x4d; x0a; x96; xda; xd4; x3c; x16; x17; xc1; xa9; x8e; x78; x12; x9e; x03; x27; x37; x10; x65; xd0; x95; x86; x4f; x15; xad; xa0; xb8; x46; xc1; xc0; xeb; xc5; x34; x8a; xdc; x79; x9a; xdf; x84] [x00; x00; x00; x00; x00; x00; x00; x00; x00; x00; x00; x00; x00; x00; x00; x00; x00; x00; x00; x00; x00; x00; x00; x00; xa8; x65; x25; xfa; x7b; x61; x15; x18] [[x00; x00; x00; x00; x00; x00; x00; x00; x00; x00; x00; x00; x00; x00; x00; x00; x00; x00; x00; x00; x00; x00; x00; x00; xa8; x65; x25; xfa; x7b; x61; x15; x01; x00; x00; x00; x00; x00; x00; x00; x00; x00; x00; x00; x00; x00; x00; x00; x00; x00; x00; x00; x00; x00; x00; x00; xa8; x65; x25; xfa; x7b; x61; x15; x18]; [x00; x00; x00; x00; x00; x00; x00; x00; x00; x00; x00; x00; x00; x00; x00; x01; x00; x00; x00; x00; x00; x00; x00; xa8; x65; x25; xfa; x7b; x61; x15; x18]];
    verify_case (OKPKey {| kb_kty := (FValue, KT_OKP); kb_kid := None; kb_alg := (Some (FValue, EDDSA)); kb_key_ops := None; kb_base_IV := None |} (FValue, ED25519) [xce; xb6; xc5; x75; xc1; x36; x5c; xb0; x26; x0d; xd6; xfc; x1f; xeb; x38; x77; xe8; xb3; x2e; xab; x12; x8d; xab; x42; x55; xdc; x9f; xe2; x7c; xfa; xc4; x0e]) [x78; x9b; x34; xca; xf5; x4f; x2e; x22; x0a; xcd; x94; x1e; x71; xb8; x8d; x58; x36; x86; x6d; x0d; x85; x8b; x63; x54; x9e; x94; xbe; x2c; xac; xc6; x7f; x5b; x7e; xf2; x8f; x2d; x99; x03; x95; x9f; x63; xd3; xd8; x93; xdc; xe7; x52; x77; x9c; x84; x16; x29; x17; xec; x8f; xf1; xaf; x4a; x64; x22; xd3; x67; xe1; x8d; x5e; xb6; xdf; xa4; x65; xa5; x33; x1f; x75; x8e; x79; x3e; xa9; x5a; x94; xeb; x0d; x15; xb6; x2a; x92; xa7; x09; xa5; x93; xa4; x4e; xd2; x27; x96; x62; xe3; x95; x45; x80; xc3] [x00; x00; x00; x00; x00; x00; x00; x00; x00; x00; x00; x00; x00; x00; x00; x00; x00; x00; x00; x00; x00; x00; x00; x00; xf6; xa4; xb9; x2b; x67; xc9; x17; x87] [[x00; x00; x00; x00; x00; x00; x00; x00; x00; x00; x00; x00; x00; x00; x00; x00; x00; x00; x00; x00; x00; x00; x00; x00; xf6; xa4; xb9; x2b; x67; xc9; x17; x01; x00; x00; x00; x00; x00; x00; x00; x00; x00; x00; x00; x00; x00; x00; x00; x00; x00; x00; x00; x00; x00; x00; x00; xf6; xa4; xb9; x2b; x67; xc9; x17; x87]; [x00; x00; x00; x00; x00; x00; x00; x00; x00; x00; x00; x00; x00; x00; x00; x01; x00; x00; x00; x00; x00; x00; x00; xf6; xa4; xb9; x2b; x67; xc9; x17; x87]];
    verify_case (OKPKey {| kb_kty := (FValue, KT_OKP); kb_kid := None; kb_alg := (Some (FValue, EDDSA)); kb_key_ops := None; kb_base_IV := None |} (FValue, ED25519) [x82; x3d; x92; x84; x0c; x2b; xa6; x5c; x70; x96; x29; x57; xe9; xbe; xcc; xe7; xf1; x34; xfa; x2a; x11; x1e; x09; x8e; x12; x89; x9f; x5a; xf4; xac; x08; xe8]) [x82; xb7; x0e; xee; x7f; x1a; x50; x39; xbe; xf0; x7e; xc2; x34; x7f; x06; x6e; xd0; x8f; x5d; xc7; x51; x24; x47; xe3; x40; x43; x00; x02; x6b; x6e; x54; x55; x94; xa0; x65; x68; x5d; x64; xc4; x98; x0b; xb8; xd4; x54; x4a; x87; x21; xa9; x9a; x01; xad; x21; x9e; xb5; x9c; xf6; xa1; x5e; xf6; xf1; x5a; x1d; x83; x0b; xb7; xce; x09; xd6; xbb; xc0; x04; xe7; x17; x5c; x64; x3c; x7d; xec; xb0; xb5; x80; xec; x37; xbc; x97; x12; xdd; x2e; x6a; xae; xb9; x4b; xae; x8d; x2f; x9f; xa2; x9c; x5a; x28] [x00; x00; x00; x00; x00; x00; x00; x00; x00; x00; x00; x00; x00; x00; x00; x00; x00; x00; x00; x00; x00; x00; x00; x00; xcc; x13; xa2; xf0; xa8; xdc; x36; xe3] [[x00; x00; x00; x00; x00; x00; x00; x00; x00; x00; x00; x00; x00; x00; x00; x00; x00; x00; x00; x00; x00; x00; x00; x00; xcc; x13; xa2; xf0; xa8; xdc; x36; x01; x00; x00; x00; x00; x00; x00; x00; x00; x00; x00; x00; x00; x00; x00; x00; x00; x00; x00; x00; x00; x00; x00; x00; xcc; x13; xa2; xf0; xa8; xdc; x36; xe3]; [x00; x00; x00; x00; x00; x00; x00; x00; x00; x00; x00; x00; x00; x00; x00; x01; x00; x00; x00; x00; x00; x00; x00; xcc; x13; xa2; xf0; xa8; xdc; x36; xe3]];
    verify_case (OKPKey {| kb_kty := (FValue, KT_OKP); kb_kid := None; kb_alg := (Some (FValue, EDDSA)); kb_key_ops := None; kb_base_IV := None |} (FValue, ED448) [xaf; x79; x73; xb1; x1d; x0b; xe1; x65; xc9; x4e; x5b; x76; x29; xca; x14; x59; xa3; x02; xe8; x53; x13; xd8; x71; x83; xe0; x60; x14; xc1; xd2; xcc; xda; x8b; xe2; xac; x0c; x28; xf1; xd6; x52; xdc; x52; x58; x88; xd3; xf6; x92; xb1; xe9; xcb; xc0; x92; x7a; xb7; x73; x87; x0a; x25]) [x44; x20; x82; x3c; xfd; xe6; xf1; xc2; x6b; x30; xf9; x0e; xc7; xdd; x01; xe4; x88; x75; x34; xa2; x0f; x0b; x0d; x04; xc3; x6e; xd8; x0e; x71; xe0; xfd; x77; xb0; x76; x70; xeb; x94; x0b; xd5; x33; x5f; x97; x3d; xaa; xd8; x61; x9b; x91; xff; xc9; x11; xf5; x7c; xce; xd4; x58; xbb; xbf; x2c; xe0; x37; x53; xc9; xbd; xfa; x0f; xf0; x16; x9d; xc9; x57; x56; x74; x06; x66; x76; xcf; xb0; xb4; xeb; x89; x02; xc4; x42; x69; xda; x1c; xf6; xba; x66; xd3; xf8; xb6; xd4; xb1; x00; xa9; xea; x0e; x75] [x00; x00; x00; x00; x00; x00; x00; x00; x00; x00; x00; x00; x00; x00; x00; x00; x00; x00; x00; x00; x00; x00; x00; x00; x33; xe1; xb2; xda; x6a; x83; x47; x94] [[x00; x00; x00; x00; x00; x00; x00; x00; x00; x00; x00; x00; x00; x00; x00; x00; x00; x00; x00; x00; x00; x00; x00; x00; x33; xe1; xb2; xda; x6a; x83; x47; x01; x00; x00; x00; x00; x00; x00; x00; x00; x00; x00; x00; x00; x00; x00; x00; x00; x00; x00; x00; x00; x00; x00; x00; x33; xe1; xb2; xda; x6a; x83; x47; x94]; [x00; x00; x00; x00; x00; x00; x00; x00; x00; x00; x00; x00; x00; x00; x00; x01; x00; x00; x00; x00; x00; x00; x00; x33; xe1; xb2; xda; x6a; x83; x47; x94]];
    verify_case (OKPKey {| kb_kty := (FValue, KT_OKP); kb_kid := None; kb_alg := (Some (FValue, EDDSA)); kb_key_ops := None; kb_base_IV := None |} (FValue, ED448) [x86; xc7; x52; x87; x81; xfb; x08; x51; xf7; x38; x70; x4d; x39; xc4; x1d; x58; x22; x30; xef; xef; x0c; x1d; x8a; x1a; xf1; x6a; xb6; xe0; x38; xad; xa3; xc3; xc7; x94; x2a; x75; xe1; xb2; xda; xdc; xdf; x88; x5f; x4d; x1b; xa9; xb4; xc0; x22; xa2; x5a; x4a; x3a; x68; xf4; x77; xb7]) [x1c; x2e; x2b; xb8; x56; x9d; x80; x6c; x12; x51; xdc; xc9; xbe; xe3; x89; x12; x0e; xba; xee; xa3; xc2; xd8; x54; x5a; x78; x76; x0c; x5a; xa6; x58; x45; xb8; x5d; xe4; xd4; xba; xb5; xb9; xe4; x52; xcc; xec; x7f; xfa; x8e; xff; xb5; xe8; xec; xb3; xe9; xf9; x71; xa6; x55; x89; xf5; x9e; x9b; xd0; x9f; x6a; xfa; xbb; x26; xae; x04; x61; x36; x1e; x19; x8b; x74; x36; x45; x88; x7d; x6b; x1e; xd8; x10; x1d; xb9; xb8; x58; x7f; x0c; x2a; x3a; x22; x0c; x14; x0a; xbf; x82; x41; x50; x5e; x00; xc5] [x00; x00; x00; x00; x00; x00; x00; x00; x00; x00; x00; x00; x00; x00; x00; x00; x00; x00; x00; x00; x00; x00; x00; x00; xb0; x21; xb2; xa7; xc7; xb8; x04; xe5] [[x00; x00; x00; x00; x00; x00; x00; x00; x00; x00; x00; x00; x00; x00; x00; x00; x00; x00; x00; x00; x00; x00; x00; x00; xb0; x21; xb2; xa7; xc7; xb8; x04; x01; x00; x00; x00; x00; x00; x00; x00; x00; x00; x00; x00; x00; x00; x00; x00; x00; x00; x00; x00; x00; x00; x00; x00; xb0; x21; xb2; xa7; xc7; xb8; x04; xe5]; [x00; x00; x00; x00; x00; x00; x00; x00; x00; x00; x00; x00; x00; x00; x00; x01; x00; x00; x00; x00; x00; x00; x00; xb0; x21; xb2; xa7; xc7; xb8; x04; xe5]];
    verify_case (OKPKey {| kb_kty := (FValue, KT_OKP); kb_kid := None; kb_alg := (Some (FValue, EDDSA)); kb_key_ops := None; kb_base_IV := None |} (FValue, ED448) [x52; x68; x99; x57; x46; xcc; xd9; xfa; xb3; x11; x26; x0c; xbc; x7f; x4f; x6d; xca; xe3; x8b; xda; xad; xf6; xae; x29; x1c; x47; xf0; x5a; x2e; x04; x21; x0c; x5d; x8e; x63; xeb; xcd; x8a; x87; xc4; x35; xca; xed; x7b; x24; xa0; x44; x0d; xc1; x1c; x94; xb0; x08; xe0; xa2; x05; xa1]) [x79; x42; xbd; xf2; x21; x06; xf0; x84; x77; x62; xf0; xf3; xcb; x4d; x76; x4d; xc7; x07; x20; x51; x15; x9a; x0f; x89; xf2; xc6; xda; xca; xe3; x44; xbb; x31; x12; x45; xfd; x6f; x84; xdf; x9a; xd7; xc5; xb3; xd0; x76; xac; x0e; x8f; x53; xa7; x35; x6c; x88; x91; x3f; x20; xf6; xf7; x2d; xb0; x22; xd2; x4d; x0a; x96; xda; xd4; x3c; x16; x17; xc1; xa9; x8e; x78; x12; x9e; x03; x27; x37; x10; x65; xd0; x95; x86; x4f; x15; xad; xa0; xb8; x46; xc1; xc0; xeb; xc5; x34; x8a; xdc; x79; x9a; xdf; x84] [x00; x00; x00; x00; x00; x00; x00; x00; x00; x00; x00; x00; x00; x00; x00; x00; x00; x00; x00; x00; x00; x00; x00; x00; xf5; x73; x15; xdb; x20; x43; x0c; x3e] [[x00; x00; x00; x00; x00; x00; x00; x00; x00; x00; x00; x00; x00; x00; x00; x00; x00; x00; x00; x00; x00; x00; x00; x00; xf5; x73; x15; xdb; x20; x43; x0c; x01; x00; x00; x00; x00; x00; x00; x00; x00; x00; x00; x00; x00; x00; x00; x00; x00; x00; x00; x00; x00; x00; x00; x00; xf5; x73; x15; xdb; x20; x43; x0c; x3e]; [x00; x00; x00; x00; x00; x00; x00; x00; x00; x00; x00; x00; x00; x00; x00; x01; x00; x00; x00; x00; x00; x00; x00; xf5; x73; x15; xdb; x20; x43; x0c; x3e]];
    verify_case (OKPKey {| kb_kty := (FValue, KT_OKP); kb_kid := None; kb_alg := (Some (FValue, EDDSA)); kb_key_ops := None; kb_base_IV := None |} (FValue, ED448) [xc8; x1a; xe4; x31; xd8; xcf; x3f; x08; x05; xd1; xb2; x59; xcf; x14; x49; x92; xd2; x55; xf0; x96; x83; x11; xc8; xd2; x4a; xa5; x57; xe8; xc9; x40; x28; xc9; x85; xc8; xfa; x11; x94; x51; x89; xc6; x8c; x3f; x82; x04; x3d; x36; xef; x4d; xee; x7b; x79; x15; x73; x28; x37; x31; x13]) [x78; x9b; x34; xca; xf5; x4f; x2e; x22; x0a; xcd; x94; x1e; x71; xb8; x8d; x58; x36; x86; x6d; x0d; x85; x8b; x63; x54; x9e; x94; xbe; x2c; xac; xc6; x7f; x5b; x7e; xf2; x8f; x2d; x99; x03; x95; x9f; x63; xd3; xd8; x93; xdc; xe7; x52; x77; x9c; x84; x16; x29; x17; xec; x8f; xf1; xaf; x4a; x64; x22; xd3; x67; xe1; x8d; x5e; xb6; xdf; xa4; x65; xa5; x33; x1f; x75; x8e; x79; x3e; xa9; x5a; x94; xeb; x0d; x15; xb6; x2a; x92; xa7; x09; xa5; x93; xa4; x4e; xd2; x27; x96; x62; xe3; x95; x45; x80; xc3] [x00; x00; x00; x00; x00; x00; x00; x00; x00; x00; x00; x00; x00; x00; x00; x00; x00; x00; x00; x00; x00; x00; x00; x00; xf9; x80; x3b; x35; x7e; x26; x70; x2e] [[x00; x00; x00; x00; x00; x00; x00; x00; x00; x00; x00; x00; x00; x00; x00; x00; x00; x00; x00; x00; x00; x00; x00; x00; xf9; x80; x3b; x35; x7e; x26; x70; x01; x00; x00; x00; x00; x00; x00; x00; x00; x00; x00; x00; x00; x00; x00; x00; x00; x00; x00; x00; x00; x00; x00; x00; xf9; x80; x3b; x35; x7e; x26; x70; x2e]; [x00; x00; x00; x00; x00; x00; x00; x00; x00; x00; x00; x00; x00; x00; x00; x01; x00; x00; x00; x00; x00; x00; x00; xf9; x80; x3b; x35; x7e; x26; x70; x2e]];
    verify_case (OKPKey {| kb_kty := (FValue, KT_OKP); kb_kid := None; kb_alg := (Some (FValue, EDDSA)); kb_key_ops := None; kb_base_IV := None |} (FValue, ED448) [x3a; x16; x81; xd4; x4b; xb1; x3a; x19; xc7; x72; x51; xfa; x57; xb4; xcb; x57; xa6; x24; x19; x07; x98; x32; xe6; x2c; x00; x18; x8f; x9c; x82; xea; xc4; x3c; x72; x9c; x40; x0c; xbb; xe4; x30; xdc; x4f; x8c; x3a; xbf; x81; x6c; xa8; x48; x72; x03; x75; xf7; xb7; x41; xd1; xaf; xda]) [x82; xb7; x0e; xee; x7f; x1a; x50; x39; xbe; xf0; x7e; xc2; x34; x7f; x06; x6e; xd0; x8f; x5d; xc7; x51; x24; x47; xe3; x40; x43; x00; x02; x6b; x6e; x54; x55; x94; xa0; x65; x68; x5d; x64; xc4; x98; x0b; xb8; xd4; x54; x4a; x87; x21; xa9; x9a; x01; xad; x21; x9e; xb5; x9c; xf6; xa1; x5e; xf6; xf1; x5a; x1d; x83; x0b; xb7; xce; x09; xd6; xbb; xc0; x04; xe7; x17; x5c; x64; x3c; x7d; xec; xb0; xb5; x80; xec; x37; xbc; x97; x12; xdd; x2e; x6a; xae; xb9; x4b; xae; x8d; x2f; x9f; xa2; x9c; x5a; x28] [x00; x00; x00; x00; x00; x00; x00; x00; x00; x00; x00; x00; x00; x00; x00; x00; x00; x00; x00; x00; x00; x00; x00; x00; x96; xc5; x7c; xb8; x4f; x10; x3b; xc5] [[x00; x00; x00; x00; x00; x00; x00; x00; x00; x00; x00; x00; x00; x00; x00; x00; x00; x00; x00; x00; x00; x00; x00; x00; x96; xc5; x7c; xb8; x4f; x10; x3b; x01; x00; x00; x00; x00; x00; x00; x00; x00; x00; x00; x00; x00; x00; x00; x00; x00; x00; x00; x00; x00; x00; x00; x00; x96; xc5; x7c; xb8; x4f; x10; x3b; xc5]; [x00; x00; x00; x00; x00; x00; x00; x00; x00; x00; x00; x00; x00; x00; x00; x01; x00; x00; x00; x00; x00; x00; x00; x96; xc5; x7c; xb8; x4f; x10; x3b; xc5]]] = true.
Proof. vm_compute. reflexivity. Qed.

(** ** /repo/tests/test_asn1.py *)


(** tests/test_asn1.py:8-30 *)
Example test_encode_decode :
  decode_key_description 100 [x30; x46; x02; x01; x00; x0a; x01; x00; x02; x01; x00; x0a; x01; x00; x04; x15; x61; x74; x74; x65; x73; x74; x61; x74; x69; x6f; x6e; x2d; x63; x68; x61; x6c; x6c; x65; x6e; x67; x65; x04; x09; x75; x6e; x69; x71; x75; x65; x2d; x69; x64; x30; x14; xa1; x05; x31; x03; x02; x01; x01; xbf; x84; x58; x02; x05; x00; xbf; x85; x3e; x03; x02; x01; x00; x30; x00]
  = WOk {| kd_challenge := blit "attestation-challenge";
            kd_software := {| al_purpose := Some [1%Z]; al_all_applications := true;
                              al_origin := Some 0%Z |};
            kd_tee := {| al_purpose := None; al_all_applications := false; al_origin := None |} |}.
Proof. vm_compute. reflexivity. Qed.

(** ** /repo/tests/test_attesters.py *)


(** The certificates of the tests, by their DER form; key descriptions are DER *)
Definition attester_certs : list cert :=
  [ {| ce_der := (blit "certificate 0"); ce_public_key := WOk (CEC SECP256R1 1068668143991401134840287927114139015069070151365658266921327820877937047710 327223588839726804819329046181379477010965135122899434189745798641740629041); ce_keydesc := WRaise EExtensionNotFound |};
    {| ce_der := (blit "certificate 1"); ce_public_key := WOk (COther 65537); ce_keydesc := WRaise EExtensionNotFound |};
    {| ce_der := (blit "certificate 2"); ce_public_key := WOk (CEC SECP384R1 1541973181993332827311044760731136105431177615770895084449760778644369059423 540363704268904892214125565207767325899437289875942365070839425205386652492); ce_keydesc := WRaise EExtensionNotFound |};
    {| ce_der := (blit "certificate 3"); ce_public_key := WOk (CEC SECP256R1 264383693753016718970677756538357674554921239543513230234543809267090998193 1226872881785484392250792581554058650386852938166124037480095905880172247763); ce_keydesc := WOk (Some [x30; x46; x02; x01; x00; x0a; x01; x00; x02; x01; x00; x0a; x01; x00; x04; x10; x63; x6c; x69; x65; x6e; x74; x2d; x64; x61; x74; x61; x2d; x68; x61; x73; x68; x04; x06; x75; x6e; x69; x71; x75; x65; x30; x0e; xa1; x05; x31; x03; x02; x01; x02; xbf; x85; x3e; x03; x02; x01; x00; x30; x0e; xa1; x05; x31; x03; x02; x01; x02; xbf; x85; x3e; x03; x02; x01; x00]) |};
    {| ce_der := (blit "certificate 4"); ce_public_key := WOk (COther 65537); ce_keydesc := WRaise EExtensionNotFound |};
    {| ce_der := (blit "certificate 5"); ce_public_key := WOk (CEC SECP256R1 618943868879410771622903794812770241496415443748978055990903834184189332569 552616154620158593396941103673599844922806235880822104154948333816719789199); ce_keydesc := WRaise EExtensionNotFound |};
    {| ce_der := (blit "certificate 6"); ce_public_key := WOk (CEC SECP256R1 1117395285469426021238352652917825144720181562054804549100904371241556569408 482592386316127295052460518749715818722049934563774937469408492995796933734); ce_keydesc := WOk (Some (blit "invalid")) |};
    {| ce_der := (blit "certificate 7"); ce_public_key := WOk (CEd25519 [xdf; xaa; xa4; x6b; x8e; x14; x9f; x96; xfe; x99; x87; x51; x94; x86; xab; x4c; x84; xc6; xe2; xfd; x56; xc4; x14; x2f; x69; xa2; x1a; x9c; x14; xd4; x37; xa5]); ce_keydesc := WOk (Some [x30; x46; x02; x01; x00; x0a; x01; x00; x02; x01; x00; x0a; x01; x00; x04; x10; x63; x6c; x69; x65; x6e; x74; x2d; x64; x61; x74; x61; x2d; x68; x61; x73; x68; x04; x06; x75; x6e; x69; x71; x75; x65; x30; x0e; xa1; x05; x31; x03; x02; x01; x02; xbf; x85; x3e; x03; x02; x01; x00; x30; x0e; xa1; x05; x31; x03; x02; x01; x02; xbf; x85; x3e; x03; x02; x01; x00]) |};
    {| ce_der := (blit "certificate 8"); ce_public_key := WOk (CEd448 [x42; x05; xb0; x7b; xb5; xde; x7b; x2a; x10; xab; x09; xe3; x0d; x56; x8f; x6b; xdb; x94; x54; x16; x13; xfe; xc7; x39; xc2; x93; xdf; x19; x75; xaa; xd6; xf9; x68; x2d; xac; xcf; x5b; x78; xf8; x24; xd6; xca; x6f; x82; x00; x90; x10; x85; x2b; x5c; x81; xe5; xde; x9c; x33; x98; x1b]); ce_keydesc := WOk (Some [x30; x46; x02; x01; x00; x0a; x01; x00; x02; x01; x00; x0a; x01; x00; x04; x10; x63; x6c; x69; x65; x6e; x74; x2d; x64; x61; x74; x61; x2d; x68; x61; x73; x68; x04; x06; x75; x6e; x69; x71; x75; x65; x30; x0e; xa1; x05; x31; x03; x02; x01; x02; xbf; x85; x3e; x03; x02; x01; x00; x30; x0e; xa1; x05; x31; x03; x02; x01; x02; xbf; x85; x3e; x03; x02; x01; x00]) |} ].
Definition attester_world : World := {|
  w_sha256 := w_sha256 ex_world; w_cbor_load := w_cbor_load ex_world;
  w_json_loads := w_json_loads ex_world; w_url := w_url ex_world;
  w_ec_load := w_ec_load ex_world; w_ed25519_load := w_ed25519_load ex_world;
  w_ed448_load := w_ed448_load ex_world; w_verify := w_verify ex_world;
  w_spki := w_spki ex_world;
  w_load_cert der := match find (fun c => bytes_eqb der (ce_der c)) attester_certs with
                     | Some c => WOk c | None => WRaise EValueError end;
  w_keydesc := decode_key_description 100;
  w_shows := w_shows ex_world; w_shows_exn := w_shows_exn ex_world;
|}.

(** tests/test_attesters.py:50-138 *)
Example test_attest_fido_u2f :
  forallb (fun b : bool => b)
  [ raises [AttestationError] (attest attester_world (S_U2F (Some []) [[]; []]) (ArgObj {| ao_auth_data := (Some {| ad_rp_id_hash := [x00; x00; x00; x00; x00; x00; x00; x00; x00; x00; x00; x00; x00; x00; x00; x00; x00; x00; x00; x00; x00; x00; x00; x00; xee; xfb; xec; xcb; xa4; x89; xdf; x74]; ad_flags := 0%N; ad_sign_count := 0%N; ad_attested := (Some {| at_aaguid := (repeat x78 16); at_id_length := 13%N; at_id := (blit "credential-id"); at_key := (Some (EC2Key {| kb_kty := (FName, KT_EC2); kb_kid := None; kb_alg := None; kb_key_ops := None; kb_base_IV := None |} [x02; x5c; xd8; x40; x87; x01; x77; xf9; x0d; x92; x88; x26; x40; x15; x6a; x8d; x1c; xa7; xe3; x12; x70; xa3; x33; x0a; x9f; xb8; x4b; x9e; xe6; x68; xf8; x9e] [x00; xb9; x33; xb5; x7b; xd6; x99; x3f; xc3; xc2; xf0; x73; x6d; x7f; x5d; x76; x23; xf9; xc3; xdb; x81; xbe; x2b; x3a; xc5; xb1; x8d; xdc; x7d; xff; x44; x31] (FName, P_256))) |}); ad_extensions := None |}); ao_fmt := F_FIDO_U2F; ao_stmt := (S_U2F (Some []) [[]; []]) |}) (blit "auth-data") (blit "client-data-hash"));
    attested_as AT_BASIC (Some [(blit "certificate 0")]) (attest attester_world (S_U2F (Some [x00; x00; x00; x00; x00; x00; x00; x00; x00; x00; x00; x00; x00; x00; x00; x00; x00; x00; x00; x00; x00; x00; x00; x00; xd1; xd6; x51; x08; x38; x03; x8f; x1d]) [(blit "certificate 0")]) (ArgObj {| ao_auth_data := (Some {| ad_rp_id_hash := [x00; x00; x00; x00; x00; x00; x00; x00; x00; x00; x00; x00; x00; x00; x00; x00; x00; x00; x00; x00; x00; x00; x00; x00; xee; xfb; xec; xcb; xa4; x89; xdf; x74]; ad_flags := 0%N; ad_sign_count := 0%N; ad_attested := (Some {| at_aaguid := (repeat x78 16); at_id_length := 13%N; at_id := (blit "credential-id"); at_key := (Some (EC2Key {| kb_kty := (FName, KT_EC2); kb_kid := None; kb_alg := None; kb_key_ops := None; kb_base_IV := None |} [x02; x5c; xd8; x40; x87; x01; x77; xf9; x0d; x92; x88; x26; x40; x15; x6a; x8d; x1c; xa7; xe3; x12; x70; xa3; x33; x0a; x9f; xb8; x4b; x9e; xe6; x68; xf8; x9e] [x00; xb9; x33; xb5; x7b; xd6; x99; x3f; xc3; xc2; xf0; x73; x6d; x7f; x5d; x76; x23; xf9; xc3; xdb; x81; xbe; x2b; x3a; xc5; xb1; x8d; xdc; x7d; xff; x44; x31] (FName, P_256))) |}); ad_extensions := None |}); ao_fmt := F_FIDO_U2F; ao_stmt := (S_U2F (Some [x00; x00; x00; x00; x00; x00; x00; x00; x00; x00; x00; x00; x00; x00; x00; x00; x00; x00; x00; x00; x00; x00; x00; x00; xd1; xd6; x51; x08; x38; x03; x8f; x1d]) [(blit "certificate 0")]) |}) (blit "auth-data") (blit "client-data-hash"));
    raises [AttestationError] (attest attester_world (S_U2F (Some (blit "bad-signature")) [(blit "certificate 0")]) (ArgObj {| ao_auth_data := (Some {| ad_rp_id_hash := [x00; x00; x00; x00; x00; x00; x00; x00; x00; x00; x00; x00; x00; x00; x00; x00; x00; x00; x00; x00; x00; x00; x00; x00; xee; xfb; xec; xcb; xa4; x89; xdf; x74]; ad_flags := 0%N; ad_sign_count := 0%N; ad_attested := (Some {| at_aaguid := (repeat x78 16); at_id_length := 13%N; at_id := (blit "credential-id"); at_key := (Some (EC2Key {| kb_kty := (FName, KT_EC2); kb_kid := None; kb_alg := None; kb_key_ops := None; kb_base_IV := None |} [x02; x5c; xd8; x40; x87; x01; x77; xf9; x0d; x92; x88; x26; x40; x15; x6a; x8d; x1c; xa7; xe3; x12; x70; xa3; x33; x0a; x9f; xb8; x4b; x9e; xe6; x68; xf8; x9e] [x00; xb9; x33; xb5; x7b; xd6; x99; x3f; xc3; xc2; xf0; x73; x6d; x7f; x5d; x76; x23; xf9; xc3; xdb; x81; xbe; x2b; x3a; xc5; xb1; x8d; xdc; x7d; xff; x44; x31] (FName, P_256))) |}); ad_extensions := None |}); ao_fmt := F_FIDO_U2F; ao_stmt := (S_U2F (Some (blit "bad-signature")) [(blit "certificate 0")]) |}) (blit "auth-data") (blit "client-data-hash"));
    raises [AttestationError] (attest attester_world (S_U2F (Some [x00; x00; x00; x00; x00; x00; x00; x00; x00; x00; x00; x00; x00; x00; x00; x00; x00; x00; x00; x00; x00; x00; x00; x00; xb8; x39; xbc; xe1; x5f; xed; xfc; xec]) [(blit "certificate 1")]) (ArgObj {| ao_auth_data := (Some {| ad_rp_id_hash := [x00; x00; x00; x00; x00; x00; x00; x00; x00; x00; x00; x00; x00; x00; x00; x00; x00; x00; x00; x00; x00; x00; x00; x00; xee; xfb; xec; xcb; xa4; x89; xdf; x74]; ad_flags := 0%N; ad_sign_count := 0%N; ad_attested := (Some {| at_aaguid := (repeat x78 16); at_id_length := 13%N; at_id := (blit "credential-id"); at_key := (Some (EC2Key {| kb_kty := (FName, KT_EC2); kb_kid := None; kb_alg := None; kb_key_ops := None; kb_base_IV := None |} [x02; x5c; xd8; x40; x87; x01; x77; xf9; x0d; x92; x88; x26; x40; x15; x6a; x8d; x1c; xa7; xe3; x12; x70; xa3; x33; x0a; x9f; xb8; x4b; x9e; xe6; x68; xf8; x9e] [x00; xb9; x33; xb5; x7b; xd6; x99; x3f; xc3; xc2; xf0; x73; x6d; x7f; x5d; x76; x23; xf9; xc3; xdb; x81; xbe; x2b; x3a; xc5; xb1; x8d; xdc; x7d; xff; x44; x31] (FName, P_256))) |}); ad_extensions := None |}); ao_fmt := F_FIDO_U2F; ao_stmt := (S_U2F (Some [x00; x00; x00; x00; x00; x00; x00; x00; x00; x00; x00; x00; x00; x00; x00; x00; x00; x00; x00; x00; x00; x00; x00; x00; xb8; x39; xbc; xe1; x5f; xed; xfc; xec]) [(blit "certificate 1")]) |}) (blit "auth-data") (blit "client-data-hash"));
    raises [AttestationError] (attest attester_world (S_U2F (Some [x00; x00; x00; x00; x00; x00; x00; x00; x00; x00; x00; x00; x00; x00; x00; x00; x00; x00; x00; x00; x00; x00; x00; x00; x14; xde; x80; xef; xb5; x7b; xad; xc5]) [(blit "certificate 2")]) (ArgObj {| ao_auth_data := (Some {| ad_rp_id_hash := [x00; x00; x00; x00; x00; x00; x00; x00; x00; x00; x00; x00; x00; x00; x00; x00; x00; x00; x00; x00; x00; x00; x00; x00; xee; xfb; xec; xcb; xa4; x89; xdf; x74]; ad_flags := 0%N; ad_sign_count := 0%N; ad_attested := (Some {| at_aaguid := (repeat x78 16); at_id_length := 13%N; at_id := (blit "credential-id"); at_key := (Some (EC2Key {| kb_kty := (FName, KT_EC2); kb_kid := None; kb_alg := None; kb_key_ops := None; kb_base_IV := None |} [x02; x5c; xd8; x40; x87; x01; x77; xf9; x0d; x92; x88; x26; x40; x15; x6a; x8d; x1c; xa7; xe3; x12; x70; xa3; x33; x0a; x9f; xb8; x4b; x9e; xe6; x68; xf8; x9e] [x00; xb9; x33; xb5; x7b; xd6; x99; x3f; xc3; xc2; xf0; x73; x6d; x7f; x5d; x76; x23; xf9; xc3; xdb; x81; xbe; x2b; x3a; xc5; xb1; x8d; xdc; x7d; xff; x44; x31] (FName, P_256))) |}); ad_extensions := None |}); ao_fmt := F_FIDO_U2F; ao_stmt := (S_U2F (Some [x00; x00; x00; x00; x00; x00; x00; x00; x00; x00; x00; x00; x00; x00; x00; x00; x00; x00; x00; x00; x00; x00; x00; x00; x14; xde; x80; xef; xb5; x7b; xad; xc5]) [(blit "certificate 2")]) |}) (blit "auth-data") (blit "client-data-hash")) ] = true.
Proof. vm_compute. reflexivity. Qed.

(** tests/test_attesters.py:141-345 *)
Example test_attest_android_key :
  forallb (fun b : bool => b)
  [ raises [AttestationError] (attest attester_world (S_AndroidKey (Some (FName, ES256)) (Some []) []) (ArgObj {| ao_auth_data := (Some {| ad_rp_id_hash := [x00; x00; x00; x00; x00; x00; x00; x00; x00; x00; x00; x00; x00; x00; x00; x00; x00; x00; x00; x00; x00; x00; x00; x00; xee; xfb; xec; xcb; xa4; x89; xdf; x74]; ad_flags := 0%N; ad_sign_count := 0%N; ad_attested := (Some {| at_aaguid := (repeat x78 16); at_id_length := 13%N; at_id := (blit "credential-id"); at_key := (Some (EC2Key {| kb_kty := (FName, KT_EC2); kb_kid := None; kb_alg := None; kb_key_ops := None; kb_base_IV := None |} [x00; x95; xa2; xc8; x3a; xe7; xee; x6e; xe8; x9f; x84; x1f; xa4; x8b; x78; x91; x42; x72; xdb; x7b; x33; x6d; x67; x07; xb2; xa7; x97; x4e; x2c; xae; x43; xb1] [x02; xb6; x62; xac; x64; x6d; xfb; x94; xee; xd2; x46; xa1; x01; x2a; xb2; x9d; xf6; x54; x35; xb5; x1b; x04; xa0; x8a; x30; x86; xeb; xa5; xc4; x29; xba; xd3] (FName, P_256))) |}); ad_extensions := None |}); ao_fmt := F_FIDO_U2F; ao_stmt := (S_AndroidKey (Some (FName, ES256)) (Some []) []) |}) (blit "auth-data") (blit "client-data-hash"));
    attested_as AT_BASIC (Some [(blit "certificate 3")]) (attest attester_world (S_AndroidKey (Some (FName, ES256)) (Some [x00; x00; x00; x00; x00; x00; x00; x00; x00; x00; x00; x00; x00; x00; x00; x00; x00; x00; x00; x00; x00; x00; x00; x00; xdc; xf1; x85; x95; x4b; xad; x75; xf4]) [(blit "certificate 3")]) (ArgObj {| ao_auth_data := (Some {| ad_rp_id_hash := [x00; x00; x00; x00; x00; x00; x00; x00; x00; x00; x00; x00; x00; x00; x00; x00; x00; x00; x00; x00; x00; x00; x00; x00; xee; xfb; xec; xcb; xa4; x89; xdf; x74]; ad_flags := 0%N; ad_sign_count := 0%N; ad_attested := (Some {| at_aaguid := (repeat x78 16); at_id_length := 13%N; at_id := (blit "credential-id"); at_key := (Some (EC2Key {| kb_kty := (FName, KT_EC2); kb_kid := None; kb_alg := None; kb_key_ops := None; kb_base_IV := None |} [x00; x95; xa2; xc8; x3a; xe7; xee; x6e; xe8; x9f; x84; x1f; xa4; x8b; x78; x91; x42; x72; xdb; x7b; x33; x6d; x67; x07; xb2; xa7; x97; x4e; x2c; xae; x43; xb1] [x02; xb6; x62; xac; x64; x6d; xfb; x94; xee; xd2; x46; xa1; x01; x2a; xb2; x9d; xf6; x54; x35; xb5; x1b; x04; xa0; x8a; x30; x86; xeb; xa5; xc4; x29; xba; xd3] (FName, P_256))) |}); ad_extensions := None |}); ao_fmt := F_FIDO_U2F; ao_stmt := (S_AndroidKey (Some (FName, ES256)) (Some [x00; x00; x00; x00; x00; x00; x00; x00; x00; x00; x00; x00; x00; x00; x00; x00; x00; x00; x00; x00; x00; x00; x00; x00; xdc; xf1; x85; x95; x4b; xad; x75; xf4]) [(blit "certificate 3")]) |}) (blit "auth-data") (blit "client-data-hash"));
    raises [AttestationError] (attest attester_world (S_AndroidKey (Some (FName, ES256)) (Some (blit "bad-signature")) [(blit "certificate 3")]) (ArgObj {| ao_auth_data := (Some {| ad_rp_id_hash := [x00; x00; x00; x00; x00; x00; x00; x00; x00; x00; x00; x00; x00; x00; x00; x00; x00; x00; x00; x00; x00; x00; x00; x00; xee; xfb; xec; xcb; xa4; x89; xdf; x74]; ad_flags := 0%N; ad_sign_count := 0%N; ad_attested := (Some {| at_aaguid := (repeat x78 16); at_id_length := 13%N; at_id := (blit "credential-id"); at_key := (Some (EC2Key {| kb_kty := (FName, KT_EC2); kb_kid := None; kb_alg := None; kb_key_ops := None; kb_base_IV := None |} [x00; x95; xa2; xc8; x3a; xe7; xee; x6e; xe8; x9f; x84; x1f; xa4; x8b; x78; x91; x42; x72; xdb; x7b; x33; x6d; x67; x07; xb2; xa7; x97; x4e; x2c; xae; x43; xb1] [x02; xb6; x62; xac; x64; x6d; xfb; x94; xee; xd2; x46; xa1; x01; x2a; xb2; x9d; xf6; x54; x35; xb5; x1b; x04; xa0; x8a; x30; x86; xeb; xa5; xc4; x29; xba; xd3] (FName, P_256))) |}); ad_extensions := None |}); ao_fmt := F_FIDO_U2F; ao_stmt := (S_AndroidKey (Some (FName, ES256)) (Some (blit "bad-signature")) [(blit "certificate 3")]) |}) (blit "auth-data") (blit "client-data-hash"));
    raises [AttestationError] (attest attester_world (S_AndroidKey (Some (FName, ES256)) (Some [x00; x00; x00; x00; x00; x00; x00; x00; x00; x00; x00; x00; x00; x00; x00; x00; x00; x00; x00; x00; x00; x00; x00; x00; x07; x54; xbe; xcf; xc7; x8e; x7c; xf4]) [(blit "certificate 4")]) (ArgObj {| ao_auth_data := (Some {| ad_rp_id_hash := [x00; x00; x00; x00; x00; x00; x00; x00; x00; x00; x00; x00; x00; x00; x00; x00; x00; x00; x00; x00; x00; x00; x00; x00; xee; xfb; xec; xcb; xa4; x89; xdf; x74]; ad_flags := 0%N; ad_sign_count := 0%N; ad_attested := (Some {| at_aaguid := (repeat x78 16); at_id_length := 13%N; at_id := (blit "credential-id"); at_key := (Some (EC2Key {| kb_kty := (FName, KT_EC2); kb_kid := None; kb_alg := None; kb_key_ops := None; kb_base_IV := None |} [x00; x95; xa2; xc8; x3a; xe7; xee; x6e; xe8; x9f; x84; x1f; xa4; x8b; x78; x91; x42; x72; xdb; x7b; x33; x6d; x67; x07; xb2; xa7; x97; x4e; x2c; xae; x43; xb1] [x02; xb6; x62; xac; x64; x6d; xfb; x94; xee; xd2; x46; xa1; x01; x2a; xb2; x9d; xf6; x54; x35; xb5; x1b; x04; xa0; x8a; x30; x86; xeb; xa5; xc4; x29; xba; xd3] (FName, P_256))) |}); ad_extensions := None |}); ao_fmt := F_FIDO_U2F; ao_stmt := (S_AndroidKey (Some (FName, ES256)) (Some [x00; x00; x00; x00; x00; x00; x00; x00; x00; x00; x00; x00; x00; x00; x00; x00; x00; x00; x00; x00; x00; x00; x00; x00; x07; x54; xbe; xcf; xc7; x8e; x7c; xf4]) [(blit "certificate 4")]) |}) (blit "auth-data") (blit "client-data-hash"));
    raises [AttestationError] (attest attester_world (S_AndroidKey (Some (FName, ES256)) (Some [x00; x00; x00; x00; x00; x00; x00; x00; x00; x00; x00; x00; x00; x00; x00; x00; x00; x00; x00; x00; x00; x00; x00; x00; xdc; xf1; x85; x95; x4b; xad; x75; xf4]) [(blit "certificate 3")]) (ArgObj {| ao_auth_data := (Some {| ad_rp_id_hash := [x00; x00; x00; x00; x00; x00; x00; x00; x00; x00; x00; x00; x00; x00; x00; x00; x00; x00; x00; x00; x00; x00; x00; x00; xee; xfb; xec; xcb; xa4; x89; xdf; x74]; ad_flags := 0%N; ad_sign_count := 0%N; ad_attested := (Some {| at_aaguid := (repeat x78 16); at_id_length := 13%N; at_id := (blit "credential-id"); at_key := (Some (EC2Key {| kb_kty := (FName, KT_EC2); kb_kid := None; kb_alg := None; kb_key_ops := None; kb_base_IV := None |} [x02; x34; xf5; x91; x9d; x56; x19; xa3; xc1; x05; x3c; x3b; x67; x0c; x82; x01; xf1; xfb; x59; x7b; x41; xe0; x7c; x89; xb0; xec; xe3; xd1; xca; x0f; xc2; xc2] [x02; x43; x35; x26; xc5; xd9; xa1; xeb; x58; x9c; x34; x85; xe1; x80; xeb; xd4; x78; xd5; xd7; xc0; x9c; xd9; x48; x6d; x39; x18; xe5; x32; x6f; xf1; xb1; x6b] (FName, P_256))) |}); ad_extensions := None |}); ao_fmt := F_FIDO_U2F; ao_stmt := (S_AndroidKey (Some (FName, ES256)) (Some [x00; x00; x00; x00; x00; x00; x00; x00; x00; x00; x00; x00; x00; x00; x00; x00; x00; x00; x00; x00; x00; x00; x00; x00; xdc; xf1; x85; x95; x4b; xad; x75; xf4]) [(blit "certificate 3")]) |}) (blit "auth-data") (blit "client-data-hash"));
    raises [AttestationError] (attest attester_world (S_AndroidKey (Some (FName, ES256)) (Some [x00; x00; x00; x00; x00; x00; x00; x00; x00; x00; x00; x00; x00; x00; x00; x00; x00; x00; x00; x00; x00; x00; x00; x00; xda; x09; x55; x41; xc7; xed; x20; xe3]) [(blit "certificate 5")]) (ArgObj {| ao_auth_data := (Some {| ad_rp_id_hash := [x00; x00; x00; x00; x00; x00; x00; x00; x00; x00; x00; x00; x00; x00; x00; x00; x00; x00; x00; x00; x00; x00; x00; x00; xee; xfb; xec; xcb; xa4; x89; xdf; x74]; ad_flags := 0%N; ad_sign_count := 0%N; ad_attested := (Some {| at_aaguid := (repeat x78 16); at_id_length := 13%N; at_id := (blit "credential-id"); at_key := (Some (EC2Key {| kb_kty := (FName, KT_EC2); kb_kid := None; kb_alg := None; kb_key_ops := None; kb_base_IV := None |} [x01; x5e; x4f; x50; x0d; xc4; x61; xa5; xf3; x53; x0b; x72; x87; xf7; x26; x9d; x98; x3f; x38; x94; x1b; x2e; xaa; x5c; x07; x7d; xb5; x84; xb7; x8d; xcc; x59] [x01; x38; xc5; x08; x65; x98; xd4; x30; x11; x69; xaf; x55; x01; x2b; x3a; xdb; x9f; x05; xdd; xa6; x66; x02; x72; x09; x6c; x5d; xae; x8f; x4b; x3a; xcc; x8f] (FName, P_256))) |}); ad_extensions := None |}); ao_fmt := F_FIDO_U2F; ao_stmt := (S_AndroidKey (Some (FName, ES256)) (Some [x00; x00; x00; x00; x00; x00; x00; x00; x00; x00; x00; x00; x00; x00; x00; x00; x00; x00; x00; x00; x00; x00; x00; x00; xdc; xf1; x85; x95; x4b; xad; x75; xf4]) [(blit "certificate 3")]) |}) (blit "auth-data") (blit "client-data-hash"));
    raises [AttestationError] (attest attester_world (S_AndroidKey (Some (FName, ES256)) (Some [x00; x00; x00; x00; x00; x00; x00; x00; x00; x00; x00; x00; x00; x00; x00; x00; x00; x00; x00; x00; x00; x00; x00; x00; xd6; x52; xaf; xfa; x31; x64; xeb; xb1]) [(blit "certificate 6")]) (ArgObj {| ao_auth_data := (Some {| ad_rp_id_hash := [x00; x00; x00; x00; x00; x00; x00; x00; x00; x00; x00; x00; x00; x00; x00; x00; x00; x00; x00; x00; x00; x00; x00; x00; xee; xfb; xec; xcb; xa4; x89; xdf; x74]; ad_flags := 0%N; ad_sign_count := 0%N; ad_attested := (Some {| at_aaguid := (repeat x78 16); at_id_length := 13%N; at_id := (blit "credential-id"); at_key := (Some (EC2Key {| kb_kty := (FName, KT_EC2); kb_kid := None; kb_alg := None; kb_key_ops := None; kb_base_IV := None |} [x02; x78; x6c; x5e; xa7; xf7; xb0; xfe; x37; x06; xee; x66; x7e; x28; x68; x72; xa8; xd5; xbc; xf8; xb6; xcc; x73; xc5; xe6; xa7; x3a; xd7; x2a; x3e; xed; x40] [x01; x11; x23; x3a; x79; xda; x48; xa2; x4d; xca; xcc; xd1; x83; xa8; x95; x01; xa5; xef; xff; xfe; xd2; xbe; xe7; xf9; x40; x47; xfc; xab; x23; x8a; x1c; x66] (FName, P_256))) |}); ad_extensions := None |}); ao_fmt := F_FIDO_U2F; ao_stmt := (S_AndroidKey (Some (FName, ES256)) (Some [x00; x00; x00; x00; x00; x00; x00; x00; x00; x00; x00; x00; x00; x00; x00; x00; x00; x00; x00; x00; x00; x00; x00; x00; xdc; xf1; x85; x95; x4b; xad; x75; xf4]) [(blit "certificate 3")]) |}) (blit "auth-data") (blit "client-data-hash"));
    attested_as AT_BASIC (Some [(blit "certificate 7")]) (attest attester_world (S_AndroidKey (Some (FName, ES256)) (Some [x00; x00; x00; x00; x00; x00; x00; x00; x00; x00; x00; x00; x00; x00; x00; x00; x00; x00; x00; x00; x00; x00; x00; x00; x64; x6b; x04; xd4; x46; x45; x97; xec]) [(blit "certificate 7")]) (ArgObj {| ao_auth_data := (Some {| ad_rp_id_hash := [x00; x00; x00; x00; x00; x00; x00; x00; x00; x00; x00; x00; x00; x00; x00; x00; x00; x00; x00; x00; x00; x00; x00; x00; xee; xfb; xec; xcb; xa4; x89; xdf; x74]; ad_flags := 0%N; ad_sign_count := 0%N; ad_attested := (Some {| at_aaguid := (repeat x78 16); at_id_length := 13%N; at_id := (blit "credential-id"); at_key := (Some (OKPKey {| kb_kty := (FName, KT_OKP); kb_kid := None; kb_alg := None; kb_key_ops := None; kb_base_IV := None |} (FName, ED25519) [xdf; xaa; xa4; x6b; x8e; x14; x9f; x96; xfe; x99; x87; x51; x94; x86; xab; x4c; x84; xc6; xe2; xfd; x56; xc4; x14; x2f; x69; xa2; x1a; x9c; x14; xd4; x37; xa5])) |}); ad_extensions := None |}); ao_fmt := F_FIDO_U2F; ao_stmt := (S_AndroidKey (Some (FName, ES256)) (Some [x00; x00; x00; x00; x00; x00; x00; x00; x00; x00; x00; x00; x00; x00; x00; x00; x00; x00; x00; x00; x00; x00; x00; x00; xdc; xf1; x85; x95; x4b; xad; x75; xf4]) [(blit "certificate 3")]) |}) (blit "auth-data") (blit "client-data-hash"));
    attested_as AT_BASIC (Some [(blit "certificate 8")]) (attest attester_world (S_AndroidKey (Some (FName, ES256)) (Some [x00; x00; x00; x00; x00; x00; x00; x00; x00; x00; x00; x00; x00; x00; x00; x00; x00; x00; x00; x00; x00; x00; x00; x00; xd3; xb8; x8a; x41; xfd; xe0; x56; xc7]) [(blit "certificate 8")]) (ArgObj {| ao_auth_data := (Some {| ad_rp_id_hash := [x00; x00; x00; x00; x00; x00; x00; x00; x00; x00; x00; x00; x00; x00; x00; x00; x00; x00; x00; x00; x00; x00; x00; x00; xee; xfb; xec; xcb; xa4; x89; xdf; x74]; ad_flags := 0%N; ad_sign_count := 0%N; ad_attested := (Some {| at_aaguid := (repeat x78 16); at_id_length := 13%N; at_id := (blit "credential-id"); at_key := (Some (OKPKey {| kb_kty := (FName, KT_OKP); kb_kid := None; kb_alg := None; kb_key_ops := None; kb_base_IV := None |} (FName, ED448) [x42; x05; xb0; x7b; xb5; xde; x7b; x2a; x10; xab; x09; xe3; x0d; x56; x8f; x6b; xdb; x94; x54; x16; x13; xfe; xc7; x39; xc2; x93; xdf; x19; x75; xaa; xd6; xf9; x68; x2d; xac; xcf; x5b; x78; xf8; x24; xd6; xca; x6f; x82; x00; x90; x10; x85; x2b; x5c; x81; xe5; xde; x9c; x33; x98; x1b])) |}); ad_extensions := None |}); ao_fmt := F_FIDO_U2F; ao_stmt := (S_AndroidKey (Some (FName, ES256)) (Some [x00; x00; x00; x00; x00; x00; x00; x00; x00; x00; x00; x00; x00; x00; x00; x00; x00; x00; x00; x00; x00; x00; x00; x00; xdc; xf1; x85; x95; x4b; xad; x75; xf4]) [(blit "certificate 3")]) |}) (blit "auth-data") (blit "client-data-hash")) ] = true.
Proof. vm_compute. reflexivity. Qed.

(** tests/test_attesters.py:348-350 *)
Example test_attest_none :
  forallb (fun b : bool => b)
  [ attested_as AT_NONE None (attest attester_world (S_None) (ArgObj {| ao_auth_data := None; ao_fmt := F_NONE; ao_stmt := (S_None) |}) [] []) ] = true.
Proof. vm_compute. reflexivity. Qed.

(** ** /repo/tests/test_backends.py *)


(** tests/test_backends.py:113-165 *)
Example test_credentials_backend_creation_success :
  forallb (fun b : bool => b)
  [ (returns) (out_result (run (constant_registrar (Ok (Some {| cdt_key := (EC2Key {| kb_kty := (FValue, KT_EC2); kb_kid := None; kb_alg := (Some (FValue, ES256)); kb_key_ops := None; kb_base_IV := None |} [x00; x56; x50; x13; x20; x47; xc3; x96; x35; x73; xdc; x20; x8c; x7e; xa4; xa2; x41; x21; xba; x4f; xd1; x0c; xce; x99; x2c; xf0; x6c; x9f; x7a; x2b; x11; x94] [x00; x05; x99; x06; x4c; x0e; x29; xce; x80; xd6; xb8; x12; x91; x31; xe9; x22; x02; x8b; x0a; x4e; x8d; x03; xf4; x2c; x66; x35; x39; xa8; xac; x46; x5e; xc4] (FValue, P_256)); cdt_sign_count := None; cdt_user := {| us_name := (lit "user"); us_icon := None; us_id := (blit "user-id"); us_display_name := (lit "username") |}; cdt_rp := None |})) (Ok None) (Ok None)) tt (handle_credential_attestation ex_world {| ra_user := {| us_name := (lit "user"); us_icon := None; us_id := (blit "user-id"); us_display_name := (lit "username") |}; ra_rp := {| rp_name := (lit "example.com"); rp_icon := None; rp_id := (lit "example.com") |}; ra_credential := {| cr_id := (lit "Y3JlZGVudGlhbC1pZA=="); cr_type := (lit "credential-type"); cr_raw_id := (blit "credential-id"); cr_response := AttestationResponse (blit "{""type"": ""webauthn.create"", ""challenge"": ""Y2hhbGxlbmdl"", ""origin"": ""https://example.com""}") [xa3; x68; x61; x75; x74; x68; x44; x61; x74; x61; x58; x99; x00; x00; x00; x00; x00; x00; x00; x00; x00; x00; x00; x00; x00; x00; x00; x00; x00; x00; x00; x00; x00; x00; x00; x00; xee; xfb; xec; xcb; xa4; x7d; xc4; x6b; xc1; x00; x00; x00; x00; x7a; x7a; x7a; x7a; x7a; x7a; x7a; x7a; x7a; x7a; x7a; x7a; x7a; x7a; x7a; x7a; x00; x0d; x63; x72; x65; x64; x65; x6e; x74; x69; x61; x6c; x2d; x69; x64; xa5; x22; x58; x20; x00; x05; x99; x06; x4c; x0e; x29; xce; x80; xd6; xb8; x12; x91; x31; xe9; x22; x02; x8b; x0a; x4e; x8d; x03; xf4; x2c; x66; x35; x39; xa8; xac; x46; x5e; xc4; x21; x58; x20; x00; x56; x50; x13; x20; x47; xc3; x96; x35; x73; xdc; x20; x8c; x7e; xa4; xa2; x41; x21; xba; x4f; xd1; x0c; xce; x99; x2c; xf0; x6c; x9f; x7a; x2b; x11; x94; x20; x01; x01; x02; x03; x26; xa1; x65; x61; x70; x70; x69; x64; xf5; x63; x66; x6d; x74; x64; x6e; x6f; x6e; x65; x67; x61; x74; x74; x53; x74; x6d; x74; xa0] |}; ra_challenge := (blit "challenge"); ra_origin := OneOrigin (lit "https://example.com"); ra_token_binding := None; ra_require_uv := false; ra_extensions := None |}))) ] = true.
Proof. vm_compute. reflexivity. Qed.

(** tests/test_backends.py:168-521 *)
Example test_credentials_backend_creation_error :
  forallb (fun b : bool => b)
  [ (raises [ClientDataTypeError]) (out_result (run (constant_registrar (Ok (Some {| cdt_key := (EC2Key {| kb_kty := (FValue, KT_EC2); kb_kid := None; kb_alg := (Some (FValue, ES256)); kb_key_ops := None; kb_base_IV := None |} [x00; x56; x50; x13; x20; x47; xc3; x96; x35; x73; xdc; x20; x8c; x7e; xa4; xa2; x41; x21; xba; x4f; xd1; x0c; xce; x99; x2c; xf0; x6c; x9f; x7a; x2b; x11; x94] [x00; x05; x99; x06; x4c; x0e; x29; xce; x80; xd6; xb8; x12; x91; x31; xe9; x22; x02; x8b; x0a; x4e; x8d; x03; xf4; x2c; x66; x35; x39; xa8; xac; x46; x5e; xc4] (FValue, P_256)); cdt_sign_count := None; cdt_user := {| us_name := (lit "user"); us_icon := None; us_id := (blit "user-id"); us_display_name := (lit "username") |}; cdt_rp := None |})) (Ok None) (Ok None)) tt (handle_credential_attestation ex_world {| ra_user := {| us_name := (lit "user"); us_icon := None; us_id := (blit "user-id"); us_display_name := (lit "username") |}; ra_rp := {| rp_name := (lit "example.com"); rp_icon := None; rp_id := (lit "example.com") |}; ra_credential := {| cr_id := (lit "Y3JlZGVudGlhbC1pZA=="); cr_type := (lit "credential-type"); cr_raw_id := (blit "credential-id"); cr_response := AttestationResponse (blit "{""type"": ""webauthn.get"", ""challenge"": ""Y2hhbGxlbmdl"", ""origin"": ""https://example.com""}") [xa3; x68; x61; x75; x74; x68; x44; x61; x74; x61; x58; x99; x00; x00; x00; x00; x00; x00; x00; x00; x00; x00; x00; x00; x00; x00; x00; x00; x00; x00; x00; x00; x00; x00; x00; x00; xee; xfb; xec; xcb; xa4; x7d; xc4; x6b; xc1; x00; x00; x00; x00; x7a; x7a; x7a; x7a; x7a; x7a; x7a; x7a; x7a; x7a; x7a; x7a; x7a; x7a; x7a; x7a; x00; x0d; x63; x72; x65; x64; x65; x6e; x74; x69; x61; x6c; x2d; x69; x64; xa5; x22; x58; x20; x00; x05; x99; x06; x4c; x0e; x29; xce; x80; xd6; xb8; x12; x91; x31; xe9; x22; x02; x8b; x0a; x4e; x8d; x03; xf4; x2c; x66; x35; x39; xa8; xac; x46; x5e; xc4; x21; x58; x20; x00; x56; x50; x13; x20; x47; xc3; x96; x35; x73; xdc; x20; x8c; x7e; xa4; xa2; x41; x21; xba; x4f; xd1; x0c; xce; x99; x2c; xf0; x6c; x9f; x7a; x2b; x11; x94; x20; x01; x01; x02; x03; x26; xa1; x65; x61; x70; x70; x69; x64; xf5; x63; x66; x6d; x74; x64; x6e; x6f; x6e; x65; x67; x61; x74; x74; x53; x74; x6d; x74; xa0] |}; ra_challenge := (blit "challenge"); ra_origin := OneOrigin (lit "https://example.com"); ra_token_binding := None; ra_require_uv := false; ra_extensions := None |})));
    (raises [ChallengeError]) (out_result (run (constant_registrar (Ok (Some {| cdt_key := (EC2Key {| kb_kty := (FValue, KT_EC2); kb_kid := None; kb_alg := (Some (FValue, ES256)); kb_key_ops := None; kb_base_IV := None |} [x00; x56; x50; x13; x20; x47; xc3; x96; x35; x73; xdc; x20; x8c; x7e; xa4; xa2; x41; x21; xba; x4f; xd1; x0c; xce; x99; x2c; xf0; x6c; x9f; x7a; x2b; x11; x94] [x00; x05; x99; x06; x4c; x0e; x29; xce; x80; xd6; xb8; x12; x91; x31; xe9; x22; x02; x8b; x0a; x4e; x8d; x03; xf4; x2c; x66; x35; x39; xa8; xac; x46; x5e; xc4] (FValue, P_256)); cdt_sign_count := None; cdt_user := {| us_name := (lit "user"); us_icon := None; us_id := (blit "user-id"); us_display_name := (lit "username") |}; cdt_rp := None |})) (Ok None) (Ok None)) tt (handle_credential_attestation ex_world {| ra_user := {| us_name := (lit "user"); us_icon := None; us_id := (blit "user-id"); us_display_name := (lit "username") |}; ra_rp := {| rp_name := (lit "example.com"); rp_icon := None; rp_id := (lit "example.com") |}; ra_credential := {| cr_id := (lit "Y3JlZGVudGlhbC1pZA=="); cr_type := (lit "credential-type"); cr_raw_id := (blit "credential-id"); cr_response := AttestationResponse (blit "{""type"": ""webauthn.create"", ""challenge"": ""Y2hhbGxlbmdl"", ""origin"": ""https://example.com""}") [xa3; x68; x61; x75; x74; x68; x44; x61; x74; x61; x58; x99; x00; x00; x00; x00; x00; x00; x00; x00; x00; x00; x00; x00; x00; x00; x00; x00; x00; x00; x00; x00; x00; x00; x00; x00; xee; xfb; xec; xcb; xa4; x7d; xc4; x6b; xc1; x00; x00; x00; x00; x7a; x7a; x7a; x7a; x7a; x7a; x7a; x7a; x7a; x7a; x7a; x7a; x7a; x7a; x7a; x7a; x00; x0d; x63; x72; x65; x64; x65; x6e; x74; x69; x61; x6c; x2d; x69; x64; xa5; x22; x58; x20; x00; x05; x99; x06; x4c; x0e; x29; xce; x80; xd6; xb8; x12; x91; x31; xe9; x22; x02; x8b; x0a; x4e; x8d; x03; xf4; x2c; x66; x35; x39; xa8; xac; x46; x5e; xc4; x21; x58; x20; x00; x56; x50; x13; x20; x47; xc3; x96; x35; x73; xdc; x20; x8c; x7e; xa4; xa2; x41; x21; xba; x4f; xd1; x0c; xce; x99; x2c; xf0; x6c; x9f; x7a; x2b; x11; x94; x20; x01; x01; x02; x03; x26; xa1; x65; x61; x70; x70; x69; x64; xf5; x63; x66; x6d; x74; x64; x6e; x6f; x6e; x65; x67; x61; x74; x74; x53; x74; x6d; x74; xa0] |}; ra_challenge := (blit "challenge-altered"); ra_origin := OneOrigin (lit "https://example.com"); ra_token_binding := None; ra_require_uv := false; ra_extensions := None |})));
    (raises [DecodingError]) (out_result (run (constant_registrar (Ok (Some {| cdt_key := (EC2Key {| kb_kty := (FValue, KT_EC2); kb_kid := None; kb_alg := (Some (FValue, ES256)); kb_key_ops := None; kb_base_IV := None |} [x00; x56; x50; x13; x20; x47; xc3; x96; x35; x73; xdc; x20; x8c; x7e; xa4; xa2; x41; x21; xba; x4f; xd1; x0c; xce; x99; x2c; xf0; x6c; x9f; x7a; x2b; x11; x94] [x00; x05; x99; x06; x4c; x0e; x29; xce; x80; xd6; xb8; x12; x91; x31; xe9; x22; x02; x8b; x0a; x4e; x8d; x03; xf4; x2c; x66; x35; x39; xa8; xac; x46; x5e; xc4] (FValue, P_256)); cdt_sign_count := None; cdt_user := {| us_name := (lit "user"); us_icon := None; us_id := (blit "user-id"); us_display_name := (lit "username") |}; cdt_rp := None |})) (Ok None) (Ok None)) tt (handle_credential_attestation ex_world {| ra_user := {| us_name := (lit "user"); us_icon := None; us_id := (blit "user-id"); us_display_name := (lit "username") |}; ra_rp := {| rp_name := (lit "example.com"); rp_icon := None; rp_id := (lit "example.com") |}; ra_credential := {| cr_id := (lit "Y3JlZGVudGlhbC1pZA=="); cr_type := (lit "credential-type"); cr_raw_id := (blit "credential-id"); cr_response := AttestationResponse (blit "{""type"": ""webauthn.create"", ""challenge"": ""\u0090\u0091\u0092"", ""origin"": ""https://example.com""}") [xa3; x68; x61; x75; x74; x68; x44; x61; x74; x61; x58; x99; x00; x00; x00; x00; x00; x00; x00; x00; x00; x00; x00; x00; x00; x00; x00; x00; x00; x00; x00; x00; x00; x00; x00; x00; xee; xfb; xec; xcb; xa4; x7d; xc4; x6b; xc1; x00; x00; x00; x00; x7a; x7a; x7a; x7a; x7a; x7a; x7a; x7a; x7a; x7a; x7a; x7a; x7a; x7a; x7a; x7a; x00; x0d; x63; x72; x65; x64; x65; x6e; x74; x69; x61; x6c; x2d; x69; x64; xa5; x22; x58; x20; x00; x05; x99; x06; x4c; x0e; x29; xce; x80; xd6; xb8; x12; x91; x31; xe9; x22; x02; x8b; x0a; x4e; x8d; x03; xf4; x2c; x66; x35; x39; xa8; xac; x46; x5e; xc4; x21; x58; x20; x00; x56; x50; x13; x20; x47; xc3; x96; x35; x73; xdc; x20; x8c; x7e; xa4; xa2; x41; x21; xba; x4f; xd1; x0c; xce; x99; x2c; xf0; x6c; x9f; x7a; x2b; x11; x94; x20; x01; x01; x02; x03; x26; xa1; x65; x61; x70; x70; x69; x64; xf5; x63; x66; x6d; x74; x64; x6e; x6f; x6e; x65; x67; x61; x74; x74; x53; x74; x6d; x74; xa0] |}; ra_challenge := (blit "challenge"); ra_origin := OneOrigin (lit "https://example.com"); ra_token_binding := None; ra_require_uv := false; ra_extensions := None |})));
    (raises [OriginError]) (out_result (run (constant_registrar (Ok (Some {| cdt_key := (EC2Key {| kb_kty := (FValue, KT_EC2); kb_kid := None; kb_alg := (Some (FValue, ES256)); kb_key_ops := None; kb_base_IV := None |} [x00; x56; x50; x13; x20; x47; xc3; x96; x35; x73; xdc; x20; x8c; x7e; xa4; xa2; x41; x21; xba; x4f; xd1; x0c; xce; x99; x2c; xf0; x6c; x9f; x7a; x2b; x11; x94] [x00; x05; x99; x06; x4c; x0e; x29; xce; x80; xd6; xb8; x12; x91; x31; xe9; x22; x02; x8b; x0a; x4e; x8d; x03; xf4; x2c; x66; x35; x39; xa8; xac; x46; x5e; xc4] (FValue, P_256)); cdt_sign_count := None; cdt_user := {| us_name := (lit "user"); us_icon := None; us_id := (blit "user-id"); us_display_name := (lit "username") |}; cdt_rp := None |})) (Ok None) (Ok None)) tt (handle_credential_attestation ex_world {| ra_user := {| us_name := (lit "user"); us_icon := None; us_id := (blit "user-id"); us_display_name := (lit "username") |}; ra_rp := {| rp_name := (lit "example.com"); rp_icon := None; rp_id := (lit "example.com") |}; ra_credential := {| cr_id := (lit "Y3JlZGVudGlhbC1pZA=="); cr_type := (lit "credential-type"); cr_raw_id := (blit "credential-id"); cr_response := AttestationResponse (blit "{""type"": ""webauthn.create"", ""challenge"": ""Y2hhbGxlbmdl"", ""origin"": ""https://example.com""}") [xa3; x68; x61; x75; x74; x68; x44; x61; x74; x61; x58; x99; x00; x00; x00; x00; x00; x00; x00; x00; x00; x00; x00; x00; x00; x00; x00; x00; x00; x00; x00; x00; x00; x00; x00; x00; xee; xfb; xec; xcb; xa4; x7d; xc4; x6b; xc1; x00; x00; x00; x00; x7a; x7a; x7a; x7a; x7a; x7a; x7a; x7a; x7a; x7a; x7a; x7a; x7a; x7a; x7a; x7a; x00; x0d; x63; x72; x65; x64; x65; x6e; x74; x69; x61; x6c; x2d; x69; x64; xa5; x22; x58; x20; x00; x05; x99; x06; x4c; x0e; x29; xce; x80; xd6; xb8; x12; x91; x31; xe9; x22; x02; x8b; x0a; x4e; x8d; x03; xf4; x2c; x66; x35; x39; xa8; xac; x46; x5e; xc4; x21; x58; x20; x00; x56; x50; x13; x20; x47; xc3; x96; x35; x73; xdc; x20; x8c; x7e; xa4; xa2; x41; x21; xba; x4f; xd1; x0c; xce; x99; x2c; xf0; x6c; x9f; x7a; x2b; x11; x94; x20; x01; x01; x02; x03; x26; xa1; x65; x61; x70; x70; x69; x64; xf5; x63; x66; x6d; x74; x64; x6e; x6f; x6e; x65; x67; x61; x74; x74; x53; x74; x6d; x74; xa0] |}; ra_challenge := (blit "challenge"); ra_origin := OneOrigin (lit "https://example.org/path"); ra_token_binding := None; ra_require_uv := false; ra_extensions := None |})));
    (raises [OriginError]) (out_result (run (constant_registrar (Ok (Some {| cdt_key := (EC2Key {| kb_kty := (FValue, KT_EC2); kb_kid := None; kb_alg := (Some (FValue, ES256)); kb_key_ops := None; kb_base_IV := None |} [x00; x56; x50; x13; x20; x47; xc3; x96; x35; x73; xdc; x20; x8c; x7e; xa4; xa2; x41; x21; xba; x4f; xd1; x0c; xce; x99; x2c; xf0; x6c; x9f; x7a; x2b; x11; x94] [x00; x05; x99; x06; x4c; x0e; x29; xce; x80; xd6; xb8; x12; x91; x31; xe9; x22; x02; x8b; x0a; x4e; x8d; x03; xf4; x2c; x66; x35; x39; xa8; xac; x46; x5e; xc4] (FValue, P_256)); cdt_sign_count := None; cdt_user := {| us_name := (lit "user"); us_icon := None; us_id := (blit "user-id"); us_display_name := (lit "username") |}; cdt_rp := None |})) (Ok None) (Ok None)) tt (handle_credential_attestation ex_world {| ra_user := {| us_name := (lit "user"); us_icon := None; us_id := (blit "user-id"); us_display_name := (lit "username") |}; ra_rp := {| rp_name := (lit "example.com"); rp_icon := None; rp_id := (lit "example.com") |}; ra_credential := {| cr_id := (lit "Y3JlZGVudGlhbC1pZA=="); cr_type := (lit "credential-type"); cr_raw_id := (blit "credential-id"); cr_response := AttestationResponse (blit "{""type"": ""webauthn.create"", ""challenge"": ""Y2hhbGxlbmdl"", ""origin"": ""https://example.com""}") [xa3; x68; x61; x75; x74; x68; x44; x61; x74; x61; x58; x99; x00; x00; x00; x00; x00; x00; x00; x00; x00; x00; x00; x00; x00; x00; x00; x00; x00; x00; x00; x00; x00; x00; x00; x00; xee; xfb; xec; xcb; xa4; x7d; xc4; x6b; xc1; x00; x00; x00; x00; x7a; x7a; x7a; x7a; x7a; x7a; x7a; x7a; x7a; x7a; x7a; x7a; x7a; x7a; x7a; x7a; x00; x0d; x63; x72; x65; x64; x65; x6e; x74; x69; x61; x6c; x2d; x69; x64; xa5; x22; x58; x20; x00; x05; x99; x06; x4c; x0e; x29; xce; x80; xd6; xb8; x12; x91; x31; xe9; x22; x02; x8b; x0a; x4e; x8d; x03; xf4; x2c; x66; x35; x39; xa8; xac; x46; x5e; xc4; x21; x58; x20; x00; x56; x50; x13; x20; x47; xc3; x96; x35; x73; xdc; x20; x8c; x7e; xa4; xa2; x41; x21; xba; x4f; xd1; x0c; xce; x99; x2c; xf0; x6c; x9f; x7a; x2b; x11; x94; x20; x01; x01; x02; x03; x26; xa1; x65; x61; x70; x70; x69; x64; xf5; x63; x66; x6d; x74; x64; x6e; x6f; x6e; x65; x67; x61; x74; x74; x53; x74; x6d; x74; xa0] |}; ra_challenge := (blit "challenge"); ra_origin := OneOrigin (lit "https://"); ra_token_binding := None; ra_require_uv := false; ra_extensions := None |})));
    (raises [OriginError]) (out_result (run (constant_registrar (Ok (Some {| cdt_key := (EC2Key {| kb_kty := (FValue, KT_EC2); kb_kid := None; kb_alg := (Some (FValue, ES256)); kb_key_ops := None; kb_base_IV := None |} [x00; x56; x50; x13; x20; x47; xc3; x96; x35; x73; xdc; x20; x8c; x7e; xa4; xa2; x41; x21; xba; x4f; xd1; x0c; xce; x99; x2c; xf0; x6c; x9f; x7a; x2b; x11; x94] [x00; x05; x99; x06; x4c; x0e; x29; xce; x80; xd6; xb8; x12; x91; x31; xe9; x22; x02; x8b; x0a; x4e; x8d; x03; xf4; x2c; x66; x35; x39; xa8; xac; x46; x5e; xc4] (FValue, P_256)); cdt_sign_count := None; cdt_user := {| us_name := (lit "user"); us_icon := None; us_id := (blit "user-id"); us_display_name := (lit "username") |}; cdt_rp := None |})) (Ok None) (Ok None)) tt (handle_credential_attestation ex_world {| ra_user := {| us_name := (lit "user"); us_icon := None; us_id := (blit "user-id"); us_display_name := (lit "username") |}; ra_rp := {| rp_name := (lit "example.com"); rp_icon := None; rp_id := (lit "example.com") |}; ra_credential := {| cr_id := (lit "Y3JlZGVudGlhbC1pZA=="); cr_type := (lit "credential-type"); cr_raw_id := (blit "credential-id"); cr_response := AttestationResponse (blit "{""type"": ""webauthn.create"", ""challenge"": ""Y2hhbGxlbmdl"", ""origin"": ""https://example.com""}") [xa3; x68; x61; x75; x74; x68; x44; x61; x74; x61; x58; x99; x00; x00; x00; x00; x00; x00; x00; x00; x00; x00; x00; x00; x00; x00; x00; x00; x00; x00; x00; x00; x00; x00; x00; x00; xee; xfb; xec; xcb; xa4; x7d; xc4; x6b; xc1; x00; x00; x00; x00; x7a; x7a; x7a; x7a; x7a; x7a; x7a; x7a; x7a; x7a; x7a; x7a; x7a; x7a; x7a; x7a; x00; x0d; x63; x72; x65; x64; x65; x6e; x74; x69; x61; x6c; x2d; x69; x64; xa5; x22; x58; x20; x00; x05; x99; x06; x4c; x0e; x29; xce; x80; xd6; xb8; x12; x91; x31; xe9; x22; x02; x8b; x0a; x4e; x8d; x03; xf4; x2c; x66; x35; x39; xa8; xac; x46; x5e; xc4; x21; x58; x20; x00; x56; x50; x13; x20; x47; xc3; x96; x35; x73; xdc; x20; x8c; x7e; xa4; xa2; x41; x21; xba; x4f; xd1; x0c; xce; x99; x2c; xf0; x6c; x9f; x7a; x2b; x11; x94; x20; x01; x01; x02; x03; x26; xa1; x65; x61; x70; x70; x69; x64; xf5; x63; x66; x6d; x74; x64; x6e; x6f; x6e; x65; x67; x61; x74; x74; x53; x74; x6d; x74; xa0] |}; ra_challenge := (blit "challenge"); ra_origin := OneOrigin (lit "https://alternative.org"); ra_token_binding := None; ra_require_uv := false; ra_extensions := None |})));
    (raises [TokenBindingError]) (out_result (run (constant_registrar (Ok (Some {| cdt_key := (EC2Key {| kb_kty := (FValue, KT_EC2); kb_kid := None; kb_alg := (Some (FValue, ES256)); kb_key_ops := None; kb_base_IV := None |} [x00; x56; x50; x13; x20; x47; xc3; x96; x35; x73; xdc; x20; x8c; x7e; xa4; xa2; x41; x21; xba; x4f; xd1; x0c; xce; x99; x2c; xf0; x6c; x9f; x7a; x2b; x11; x94] [x00; x05; x99; x06; x4c; x0e; x29; xce; x80; xd6; xb8; x12; x91; x31; xe9; x22; x02; x8b; x0a; x4e; x8d; x03; xf4; x2c; x66; x35; x39; xa8; xac; x46; x5e; xc4] (FValue, P_256)); cdt_sign_count := None; cdt_user := {| us_name := (lit "user"); us_icon := None; us_id := (blit "user-id"); us_display_name := (lit "username") |}; cdt_rp := None |})) (Ok None) (Ok None)) tt (handle_credential_attestation ex_world {| ra_user := {| us_name := (lit "user"); us_icon := None; us_id := (blit "user-id"); us_display_name := (lit "username") |}; ra_rp := {| rp_name := (lit "example.com"); rp_icon := None; rp_id := (lit "example.com") |}; ra_credential := {| cr_id := (lit "Y3JlZGVudGlhbC1pZA=="); cr_type := (lit "credential-type"); cr_raw_id := (blit "credential-id"); cr_response := AttestationResponse (blit "{""type"": ""webauthn.create"", ""challenge"": ""Y2hhbGxlbmdl"", ""origin"": ""https://example.com""}") [xa3; x68; x61; x75; x74; x68; x44; x61; x74; x61; x58; x99; x00; x00; x00; x00; x00; x00; x00; x00; x00; x00; x00; x00; x00; x00; x00; x00; x00; x00; x00; x00; x00; x00; x00; x00; xee; xfb; xec; xcb; xa4; x7d; xc4; x6b; xc1; x00; x00; x00; x00; x7a; x7a; x7a; x7a; x7a; x7a; x7a; x7a; x7a; x7a; x7a; x7a; x7a; x7a; x7a; x7a; x00; x0d; x63; x72; x65; x64; x65; x6e; x74; x69; x61; x6c; x2d; x69; x64; xa5; x22; x58; x20; x00; x05; x99; x06; x4c; x0e; x29; xce; x80; xd6; xb8; x12; x91; x31; xe9; x22; x02; x8b; x0a; x4e; x8d; x03; xf4; x2c; x66; x35; x39; xa8; xac; x46; x5e; xc4; x21; x58; x20; x00; x56; x50; x13; x20; x47; xc3; x96; x35; x73; xdc; x20; x8c; x7e; xa4; xa2; x41; x21; xba; x4f; xd1; x0c; xce; x99; x2c; xf0; x6c; x9f; x7a; x2b; x11; x94; x20; x01; x01; x02; x03; x26; xa1; x65; x61; x70; x70; x69; x64; xf5; x63; x66; x6d; x74; x64; x6e; x6f; x6e; x65; x67; x61; x74; x74; x53; x74; x6d; x74; xa0] |}; ra_challenge := (blit "challenge"); ra_origin := OneOrigin (lit "https://example.com"); ra_token_binding := (Some {| etb_status := TB_PRESENT; etb_id := (Some (lit "token-binding-id")) |}); ra_require_uv := false; ra_extensions := None |})));
    (raises [TokenBindingError]) (out_result (run (constant_registrar (Ok (Some {| cdt_key := (EC2Key {| kb_kty := (FValue, KT_EC2); kb_kid := None; kb_alg := (Some (FValue, ES256)); kb_key_ops := None; kb_base_IV := None |} [x00; x56; x50; x13; x20; x47; xc3; x96; x35; x73; xdc; x20; x8c; x7e; xa4; xa2; x41; x21; xba; x4f; xd1; x0c; xce; x99; x2c; xf0; x6c; x9f; x7a; x2b; x11; x94] [x00; x05; x99; x06; x4c; x0e; x29; xce; x80; xd6; xb8; x12; x91; x31; xe9; x22; x02; x8b; x0a; x4e; x8d; x03; xf4; x2c; x66; x35; x39; xa8; xac; x46; x5e; xc4] (FValue, P_256)); cdt_sign_count := None; cdt_user := {| us_name := (lit "user"); us_icon := None; us_id := (blit "user-id"); us_display_name := (lit "username") |}; cdt_rp := None |})) (Ok None) (Ok None)) tt (handle_credential_attestation ex_world {| ra_user := {| us_name := (lit "user"); us_icon := None; us_id := (blit "user-id"); us_display_name := (lit "username") |}; ra_rp := {| rp_name := (lit "example.com"); rp_icon := None; rp_id := (lit "example.com") |}; ra_credential := {| cr_id := (lit "Y3JlZGVudGlhbC1pZA=="); cr_type := (lit "credential-type"); cr_raw_id := (blit "credential-id"); cr_response := AttestationResponse (blit "{""type"": ""webauthn.create"", ""challenge"": ""Y2hhbGxlbmdl"", ""origin"": ""https://example.com"", ""tokenBinding"": {""status"": ""supported""}}") [xa3; x68; x61; x75; x74; x68; x44; x61; x74; x61; x58; x99; x00; x00; x00; x00; x00; x00; x00; x00; x00; x00; x00; x00; x00; x00; x00; x00; x00; x00; x00; x00; x00; x00; x00; x00; xee; xfb; xec; xcb; xa4; x7d; xc4; x6b; xc1; x00; x00; x00; x00; x7a; x7a; x7a; x7a; x7a; x7a; x7a; x7a; x7a; x7a; x7a; x7a; x7a; x7a; x7a; x7a; x00; x0d; x63; x72; x65; x64; x65; x6e; x74; x69; x61; x6c; x2d; x69; x64; xa5; x22; x58; x20; x00; x05; x99; x06; x4c; x0e; x29; xce; x80; xd6; xb8; x12; x91; x31; xe9; x22; x02; x8b; x0a; x4e; x8d; x03; xf4; x2c; x66; x35; x39; xa8; xac; x46; x5e; xc4; x21; x58; x20; x00; x56; x50; x13; x20; x47; xc3; x96; x35; x73; xdc; x20; x8c; x7e; xa4; xa2; x41; x21; xba; x4f; xd1; x0c; xce; x99; x2c; xf0; x6c; x9f; x7a; x2b; x11; x94; x20; x01; x01; x02; x03; x26; xa1; x65; x61; x70; x70; x69; x64; xf5; x63; x66; x6d; x74; x64; x6e; x6f; x6e; x65; x67; x61; x74; x74; x53; x74; x6d; x74; xa0] |}; ra_challenge := (blit "challenge"); ra_origin := OneOrigin (lit "https://example.com"); ra_token_binding := (Some {| etb_status := TB_PRESENT; etb_id := (Some (lit "token-binding-id")) |}); ra_require_uv := false; ra_extensions := None |})));
    (returns) (out_result (run (constant_registrar (Ok (Some {| cdt_key := (EC2Key {| kb_kty := (FValue, KT_EC2); kb_kid := None; kb_alg := (Some (FValue, ES256)); kb_key_ops := None; kb_base_IV := None |} [x00; x56; x50; x13; x20; x47; xc3; x96; x35; x73; xdc; x20; x8c; x7e; xa4; xa2; x41; x21; xba; x4f; xd1; x0c; xce; x99; x2c; xf0; x6c; x9f; x7a; x2b; x11; x94] [x00; x05; x99; x06; x4c; x0e; x29; xce; x80; xd6; xb8; x12; x91; x31; xe9; x22; x02; x8b; x0a; x4e; x8d; x03; xf4; x2c; x66; x35; x39; xa8; xac; x46; x5e; xc4] (FValue, P_256)); cdt_sign_count := None; cdt_user := {| us_name := (lit "user"); us_icon := None; us_id := (blit "user-id"); us_display_name := (lit "username") |}; cdt_rp := None |})) (Ok None) (Ok None)) tt (handle_credential_attestation ex_world {| ra_user := {| us_name := (lit "user"); us_icon := None; us_id := (blit "user-id"); us_display_name := (lit "username") |}; ra_rp := {| rp_name := (lit "example.com"); rp_icon := None; rp_id := (lit "example.com") |}; ra_credential := {| cr_id := (lit "Y3JlZGVudGlhbC1pZA=="); cr_type := (lit "credential-type"); cr_raw_id := (blit "credential-id"); cr_response := AttestationResponse (blit "{""type"": ""webauthn.create"", ""challenge"": ""Y2hhbGxlbmdl"", ""origin"": ""https://example.com"", ""tokenBinding"": {""status"": ""present"", ""id"": ""token-binding-id""}}") [xa3; x68; x61; x75; x74; x68; x44; x61; x74; x61; x58; x99; x00; x00; x00; x00; x00; x00; x00; x00; x00; x00; x00; x00; x00; x00; x00; x00; x00; x00; x00; x00; x00; x00; x00; x00; xee; xfb; xec; xcb; xa4; x7d; xc4; x6b; xc1; x00; x00; x00; x00; x7a; x7a; x7a; x7a; x7a; x7a; x7a; x7a; x7a; x7a; x7a; x7a; x7a; x7a; x7a; x7a; x00; x0d; x63; x72; x65; x64; x65; x6e; x74; x69; x61; x6c; x2d; x69; x64; xa5; x22; x58; x20; x00; x05; x99; x06; x4c; x0e; x29; xce; x80; xd6; xb8; x12; x91; x31; xe9; x22; x02; x8b; x0a; x4e; x8d; x03; xf4; x2c; x66; x35; x39; xa8; xac; x46; x5e; xc4; x21; x58; x20; x00; x56; x50; x13; x20; x47; xc3; x96; x35; x73; xdc; x20; x8c; x7e; xa4; xa2; x41; x21; xba; x4f; xd1; x0c; xce; x99; x2c; xf0; x6c; x9f; x7a; x2b; x11; x94; x20; x01; x01; x02; x03; x26; xa1; x65; x61; x70; x70; x69; x64; xf5; x63; x66; x6d; x74; x64; x6e; x6f; x6e; x65; x67; x61; x74; x74; x53; x74; x6d; x74; xa0] |}; ra_challenge := (blit "challenge"); ra_origin := OneOrigin (lit "https://example.com"); ra_token_binding := (Some {| etb_status := TB_PRESENT; etb_id := (Some (lit "token-binding-id")) |}); ra_require_uv := false; ra_extensions := None |})));
    (raises [TokenBindingError]) (out_result (run (constant_registrar (Ok (Some {| cdt_key := (EC2Key {| kb_kty := (FValue, KT_EC2); kb_kid := None; kb_alg := (Some (FValue, ES256)); kb_key_ops := None; kb_base_IV := None |} [x00; x56; x50; x13; x20; x47; xc3; x96; x35; x73; xdc; x20; x8c; x7e; xa4; xa2; x41; x21; xba; x4f; xd1; x0c; xce; x99; x2c; xf0; x6c; x9f; x7a; x2b; x11; x94] [x00; x05; x99; x06; x4c; x0e; x29; xce; x80; xd6; xb8; x12; x91; x31; xe9; x22; x02; x8b; x0a; x4e; x8d; x03; xf4; x2c; x66; x35; x39; xa8; xac; x46; x5e; xc4] (FValue, P_256)); cdt_sign_count := None; cdt_user := {| us_name := (lit "user"); us_icon := None; us_id := (blit "user-id"); us_display_name := (lit "username") |}; cdt_rp := None |})) (Ok None) (Ok None)) tt (handle_credential_attestation ex_world {| ra_user := {| us_name := (lit "user"); us_icon := None; us_id := (blit "user-id"); us_display_name := (lit "username") |}; ra_rp := {| rp_name := (lit "example.com"); rp_icon := None; rp_id := (lit "example.com") |}; ra_credential := {| cr_id := (lit "Y3JlZGVudGlhbC1pZA=="); cr_type := (lit "credential-type"); cr_raw_id := (blit "credential-id"); cr_response := AttestationResponse (blit "{""type"": ""webauthn.create"", ""challenge"": ""Y2hhbGxlbmdl"", ""origin"": ""https://example.com"", ""tokenBinding"": {""status"": ""present"", ""id"": ""token-binding-id-invalid""}}") [xa3; x68; x61; x75; x74; x68; x44; x61; x74; x61; x58; x99; x00; x00; x00; x00; x00; x00; x00; x00; x00; x00; x00; x00; x00; x00; x00; x00; x00; x00; x00; x00; x00; x00; x00; x00; xee; xfb; xec; xcb; xa4; x7d; xc4; x6b; xc1; x00; x00; x00; x00; x7a; x7a; x7a; x7a; x7a; x7a; x7a; x7a; x7a; x7a; x7a; x7a; x7a; x7a; x7a; x7a; x00; x0d; x63; x72; x65; x64; x65; x6e; x74; x69; x61; x6c; x2d; x69; x64; xa5; x22; x58; x20; x00; x05; x99; x06; x4c; x0e; x29; xce; x80; xd6; xb8; x12; x91; x31; xe9; x22; x02; x8b; x0a; x4e; x8d; x03; xf4; x2c; x66; x35; x39; xa8; xac; x46; x5e; xc4; x21; x58; x20; x00; x56; x50; x13; x20; x47; xc3; x96; x35; x73; xdc; x20; x8c; x7e; xa4; xa2; x41; x21; xba; x4f; xd1; x0c; xce; x99; x2c; xf0; x6c; x9f; x7a; x2b; x11; x94; x20; x01; x01; x02; x03; x26; xa1; x65; x61; x70; x70; x69; x64; xf5; x63; x66; x6d; x74; x64; x6e; x6f; x6e; x65; x67; x61; x74; x74; x53; x74; x6d; x74; xa0] |}; ra_challenge := (blit "challenge"); ra_origin := OneOrigin (lit "https://example.com"); ra_token_binding := (Some {| etb_status := TB_PRESENT; etb_id := (Some (lit "token-binding-id")) |}); ra_require_uv := false; ra_extensions := None |})));
    (raises [TokenBindingError]) (out_result (run (constant_registrar (Ok (Some {| cdt_key := (EC2Key {| kb_kty := (FValue, KT_EC2); kb_kid := None; kb_alg := (Some (FValue, ES256)); kb_key_ops := None; kb_base_IV := None |} [x00; x56; x50; x13; x20; x47; xc3; x96; x35; x73; xdc; x20; x8c; x7e; xa4; xa2; x41; x21; xba; x4f; xd1; x0c; xce; x99; x2c; xf0; x6c; x9f; x7a; x2b; x11; x94] [x00; x05; x99; x06; x4c; x0e; x29; xce; x80; xd6; xb8; x12; x91; x31; xe9; x22; x02; x8b; x0a; x4e; x8d; x03; xf4; x2c; x66; x35; x39; xa8; xac; x46; x5e; xc4] (FValue, P_256)); cdt_sign_count := None; cdt_user := {| us_name := (lit "user"); us_icon := None; us_id := (blit "user-id"); us_display_name := (lit "username") |}; cdt_rp := None |})) (Ok None) (Ok None)) tt (handle_credential_attestation ex_world {| ra_user := {| us_name := (lit "user"); us_icon := None; us_id := (blit "user-id"); us_display_name := (lit "username") |}; ra_rp := {| rp_name := (lit "example.com"); rp_icon := None; rp_id := (lit "example.com") |}; ra_credential := {| cr_id := (lit "Y3JlZGVudGlhbC1pZA=="); cr_type := (lit "credential-type"); cr_raw_id := (blit "credential-id"); cr_response := AttestationResponse (blit "{""type"": ""webauthn.create"", ""challenge"": ""Y2hhbGxlbmdl"", ""origin"": ""https://example.com"", ""tokenBinding"": {""status"": ""present"", ""id"": ""token-binding-id-invalid""}}") [xa3; x68; x61; x75; x74; x68; x44; x61; x74; x61; x58; x99; x00; x00; x00; x00; x00; x00; x00; x00; x00; x00; x00; x00; x00; x00; x00; x00; x00; x00; x00; x00; x00; x00; x00; x00; xee; xfb; xec; xcb; xa4; x7d; xc4; x6b; xc1; x00; x00; x00; x00; x7a; x7a; x7a; x7a; x7a; x7a; x7a; x7a; x7a; x7a; x7a; x7a; x7a; x7a; x7a; x7a; x00; x0d; x63; x72; x65; x64; x65; x6e; x74; x69; x61; x6c; x2d; x69; x64; xa5; x22; x58; x20; x00; x05; x99; x06; x4c; x0e; x29; xce; x80; xd6; xb8; x12; x91; x31; xe9; x22; x02; x8b; x0a; x4e; x8d; x03; xf4; x2c; x66; x35; x39; xa8; xac; x46; x5e; xc4; x21; x58; x20; x00; x56; x50; x13; x20; x47; xc3; x96; x35; x73; xdc; x20; x8c; x7e; xa4; xa2; x41; x21; xba; x4f; xd1; x0c; xce; x99; x2c; xf0; x6c; x9f; x7a; x2b; x11; x94; x20; x01; x01; x02; x03; x26; xa1; x65; x61; x70; x70; x69; x64; xf5; x63; x66; x6d; x74; x64; x6e; x6f; x6e; x65; x67; x61; x74; x74; x53; x74; x6d; x74; xa0] |}; ra_challenge := (blit "challenge"); ra_origin := OneOrigin (lit "https://example.com"); ra_token_binding := None; ra_require_uv := false; ra_extensions := None |})));
    (raises [RPIDHashError]) (out_result (run (constant_registrar (Ok (Some {| cdt_key := (EC2Key {| kb_kty := (FValue, KT_EC2); kb_kid := None; kb_alg := (Some (FValue, ES256)); kb_key_ops := None; kb_base_IV := None |} [x00; x56; x50; x13; x20; x47; xc3; x96; x35; x73; xdc; x20; x8c; x7e; xa4; xa2; x41; x21; xba; x4f; xd1; x0c; xce; x99; x2c; xf0; x6c; x9f; x7a; x2b; x11; x94] [x00; x05; x99; x06; x4c; x0e; x29; xce; x80; xd6; xb8; x12; x91; x31; xe9; x22; x02; x8b; x0a; x4e; x8d; x03; xf4; x2c; x66; x35; x39; xa8; xac; x46; x5e; xc4] (FValue, P_256)); cdt_sign_count := None; cdt_user := {| us_name := (lit "user"); us_icon := None; us_id := (blit "user-id"); us_display_name := (lit "username") |}; cdt_rp := None |})) (Ok None) (Ok None)) tt (handle_credential_attestation ex_world {| ra_user := {| us_name := (lit "user"); us_icon := None; us_id := (blit "user-id"); us_display_name := (lit "username") |}; ra_rp := {| rp_name := (lit "example.com"); rp_icon := None; rp_id := (lit "example.com") |}; ra_credential := {| cr_id := (lit "Y3JlZGVudGlhbC1pZA=="); cr_type := (lit "credential-type"); cr_raw_id := (blit "credential-id"); cr_response := AttestationResponse (blit "{""type"": ""webauthn.create"", ""challenge"": ""Y2hhbGxlbmdl"", ""origin"": ""https://example.com""}") [xa3; x68; x61; x75; x74; x68; x44; x61; x74; x61; x58; x99; x00; x00; x00; x00; x00; x00; x00; x00; x00; x00; x00; x00; x00; x00; x00; x00; x00; x00; x00; x00; x00; x00; x00; x00; x07; x9e; x87; xdc; xe0; x85; x20; xf5; xc1; x00; x00; x00; x00; x7a; x7a; x7a; x7a; x7a; x7a; x7a; x7a; x7a; x7a; x7a; x7a; x7a; x7a; x7a; x7a; x00; x0d; x63; x72; x65; x64; x65; x6e; x74; x69; x61; x6c; x2d; x69; x64; xa5; x22; x58; x20; x00; x05; x99; x06; x4c; x0e; x29; xce; x80; xd6; xb8; x12; x91; x31; xe9; x22; x02; x8b; x0a; x4e; x8d; x03; xf4; x2c; x66; x35; x39; xa8; xac; x46; x5e; xc4; x21; x58; x20; x00; x56; x50; x13; x20; x47; xc3; x96; x35; x73; xdc; x20; x8c; x7e; xa4; xa2; x41; x21; xba; x4f; xd1; x0c; xce; x99; x2c; xf0; x6c; x9f; x7a; x2b; x11; x94; x20; x01; x01; x02; x03; x26; xa1; x65; x61; x70; x70; x69; x64; xf5; x63; x66; x6d; x74; x64; x6e; x6f; x6e; x65; x67; x61; x74; x74; x53; x74; x6d; x74; xa0] |}; ra_challenge := (blit "challenge"); ra_origin := OneOrigin (lit "https://example.com"); ra_token_binding := None; ra_require_uv := false; ra_extensions := None |})));
    (raises [UserPresenceError]) (out_result (run (constant_registrar (Ok (Some {| cdt_key := (EC2Key {| kb_kty := (FValue, KT_EC2); kb_kid := None; kb_alg := (Some (FValue, ES256)); kb_key_ops := None; kb_base_IV := None |} [x00; x56; x50; x13; x20; x47; xc3; x96; x35; x73; xdc; x20; x8c; x7e; xa4; xa2; x41; x21; xba; x4f; xd1; x0c; xce; x99; x2c; xf0; x6c; x9f; x7a; x2b; x11; x94] [x00; x05; x99; x06; x4c; x0e; x29; xce; x80; xd6; xb8; x12; x91; x31; xe9; x22; x02; x8b; x0a; x4e; x8d; x03; xf4; x2c; x66; x35; x39; xa8; xac; x46; x5e; xc4] (FValue, P_256)); cdt_sign_count := None; cdt_user := {| us_name := (lit "user"); us_icon := None; us_id := (blit "user-id"); us_display_name := (lit "username") |}; cdt_rp := None |})) (Ok None) (Ok None)) tt (handle_credential_attestation ex_world {| ra_user := {| us_name := (lit "user"); us_icon := None; us_id := (blit "user-id"); us_display_name := (lit "username") |}; ra_rp := {| rp_name := (lit "example.com"); rp_icon := None; rp_id := (lit "example.com") |}; ra_credential := {| cr_id := (lit "Y3JlZGVudGlhbC1pZA=="); cr_type := (lit "credential-type"); cr_raw_id := (blit "credential-id"); cr_response := AttestationResponse (blit "{""type"": ""webauthn.create"", ""challenge"": ""Y2hhbGxlbmdl"", ""origin"": ""https://example.com""}") [xa3; x68; x61; x75; x74; x68; x44; x61; x74; x61; x58; x99; x00; x00; x00; x00; x00; x00; x00; x00; x00; x00; x00; x00; x00; x00; x00; x00; x00; x00; x00; x00; x00; x00; x00; x00; xee; xfb; xec; xcb; xa4; x7d; xc4; x6b; xc0; x00; x00; x00; x00; x7a; x7a; x7a; x7a; x7a; x7a; x7a; x7a; x7a; x7a; x7a; x7a; x7a; x7a; x7a; x7a; x00; x0d; x63; x72; x65; x64; x65; x6e; x74; x69; x61; x6c; x2d; x69; x64; xa5; x22; x58; x20; x00; x05; x99; x06; x4c; x0e; x29; xce; x80; xd6; xb8; x12; x91; x31; xe9; x22; x02; x8b; x0a; x4e; x8d; x03; xf4; x2c; x66; x35; x39; xa8; xac; x46; x5e; xc4; x21; x58; x20; x00; x56; x50; x13; x20; x47; xc3; x96; x35; x73; xdc; x20; x8c; x7e; xa4; xa2; x41; x21; xba; x4f; xd1; x0c; xce; x99; x2c; xf0; x6c; x9f; x7a; x2b; x11; x94; x20; x01; x01; x02; x03; x26; xa1; x65; x61; x70; x70; x69; x64; xf5; x63; x66; x6d; x74; x64; x6e; x6f; x6e; x65; x67; x61; x74; x74; x53; x74; x6d; x74; xa0] |}; ra_challenge := (blit "challenge"); ra_origin := OneOrigin (lit "https://example.com"); ra_token_binding := None; ra_require_uv := false; ra_extensions := None |})));
    (raises [UserVerificationError]) (out_result (run (constant_registrar (Ok (Some {| cdt_key := (EC2Key {| kb_kty := (FValue, KT_EC2); kb_kid := None; kb_alg := (Some (FValue, ES256)); kb_key_ops := None; kb_base_IV := None |} [x00; x56; x50; x13; x20; x47; xc3; x96; x35; x73; xdc; x20; x8c; x7e; xa4; xa2; x41; x21; xba; x4f; xd1; x0c; xce; x99; x2c; xf0; x6c; x9f; x7a; x2b; x11; x94] [x00; x05; x99; x06; x4c; x0e; x29; xce; x80; xd6; xb8; x12; x91; x31; xe9; x22; x02; x8b; x0a; x4e; x8d; x03; xf4; x2c; x66; x35; x39; xa8; xac; x46; x5e; xc4] (FValue, P_256)); cdt_sign_count := None; cdt_user := {| us_name := (lit "user"); us_icon := None; us_id := (blit "user-id"); us_display_name := (lit "username") |}; cdt_rp := None |})) (Ok None) (Ok None)) tt (handle_credential_attestation ex_world {| ra_user := {| us_name := (lit "user"); us_icon := None; us_id := (blit "user-id"); us_display_name := (lit "username") |}; ra_rp := {| rp_name := (lit "example.com"); rp_icon := None; rp_id := (lit "example.com") |}; ra_credential := {| cr_id := (lit "Y3JlZGVudGlhbC1pZA=="); cr_type := (lit "credential-type"); cr_raw_id := (blit "credential-id"); cr_response := AttestationResponse (blit "{""type"": ""webauthn.create"", ""challenge"": ""Y2hhbGxlbmdl"", ""origin"": ""https://example.com""}") [xa3; x68; x61; x75; x74; x68; x44; x61; x74; x61; x58; x99; x00; x00; x00; x00; x00; x00; x00; x00; x00; x00; x00; x00; x00; x00; x00; x00; x00; x00; x00; x00; x00; x00; x00; x00; xee; xfb; xec; xcb; xa4; x7d; xc4; x6b; xc1; x00; x00; x00; x00; x7a; x7a; x7a; x7a; x7a; x7a; x7a; x7a; x7a; x7a; x7a; x7a; x7a; x7a; x7a; x7a; x00; x0d; x63; x72; x65; x64; x65; x6e; x74; x69; x61; x6c; x2d; x69; x64; xa5; x22; x58; x20; x00; x05; x99; x06; x4c; x0e; x29; xce; x80; xd6; xb8; x12; x91; x31; xe9; x22; x02; x8b; x0a; x4e; x8d; x03; xf4; x2c; x66; x35; x39; xa8; xac; x46; x5e; xc4; x21; x58; x20; x00; x56; x50; x13; x20; x47; xc3; x96; x35; x73; xdc; x20; x8c; x7e; xa4; xa2; x41; x21; xba; x4f; xd1; x0c; xce; x99; x2c; xf0; x6c; x9f; x7a; x2b; x11; x94; x20; x01; x01; x02; x03; x26; xa1; x65; x61; x70; x70; x69; x64; xf5; x63; x66; x6d; x74; x64; x6e; x6f; x6e; x65; x67; x61; x74; x74; x53; x74; x6d; x74; xa0] |}; ra_challenge := (blit "challenge"); ra_origin := OneOrigin (lit "https://example.com"); ra_token_binding := None; ra_require_uv := true; ra_extensions := None |})));
    (raises [ExtensionError]) (out_result (run (constant_registrar (Ok (Some {| cdt_key := (EC2Key {| kb_kty := (FValue, KT_EC2); kb_kid := None; kb_alg := (Some (FValue, ES256)); kb_key_ops := None; kb_base_IV := None |} [x00; x56; x50; x13; x20; x47; xc3; x96; x35; x73; xdc; x20; x8c; x7e; xa4; xa2; x41; x21; xba; x4f; xd1; x0c; xce; x99; x2c; xf0; x6c; x9f; x7a; x2b; x11; x94] [x00; x05; x99; x06; x4c; x0e; x29; xce; x80; xd6; xb8; x12; x91; x31; xe9; x22; x02; x8b; x0a; x4e; x8d; x03; xf4; x2c; x66; x35; x39; xa8; xac; x46; x5e; xc4] (FValue, P_256)); cdt_sign_count := None; cdt_user := {| us_name := (lit "user"); us_icon := None; us_id := (blit "user-id"); us_display_name := (lit "username") |}; cdt_rp := None |})) (Ok None) (Ok None)) tt (handle_credential_attestation ex_world {| ra_user := {| us_name := (lit "user"); us_icon := None; us_id := (blit "user-id"); us_display_name := (lit "username") |}; ra_rp := {| rp_name := (lit "example.com"); rp_icon := None; rp_id := (lit "example.com") |}; ra_credential := {| cr_id := (lit "Y3JlZGVudGlhbC1pZA=="); cr_type := (lit "credential-type"); cr_raw_id := (blit "credential-id"); cr_response := AttestationResponse (blit "{""type"": ""webauthn.create"", ""challenge"": ""Y2hhbGxlbmdl"", ""origin"": ""https://example.com""}") [xa3; x68; x61; x75; x74; x68; x44; x61; x74; x61; x58; x99; x00; x00; x00; x00; x00; x00; x00; x00; x00; x00; x00; x00; x00; x00; x00; x00; x00; x00; x00; x00; x00; x00; x00; x00; xee; xfb; xec; xcb; xa4; x7d; xc4; x6b; xc1; x00; x00; x00; x00; x7a; x7a; x7a; x7a; x7a; x7a; x7a; x7a; x7a; x7a; x7a; x7a; x7a; x7a; x7a; x7a; x00; x0d; x63; x72; x65; x64; x65; x6e; x74; x69; x61; x6c; x2d; x69; x64; xa5; x22; x58; x20; x00; x05; x99; x06; x4c; x0e; x29; xce; x80; xd6; xb8; x12; x91; x31; xe9; x22; x02; x8b; x0a; x4e; x8d; x03; xf4; x2c; x66; x35; x39; xa8; xac; x46; x5e; xc4; x21; x58; x20; x00; x56; x50; x13; x20; x47; xc3; x96; x35; x73; xdc; x20; x8c; x7e; xa4; xa2; x41; x21; xba; x4f; xd1; x0c; xce; x99; x2c; xf0; x6c; x9f; x7a; x2b; x11; x94; x20; x01; x01; x02; x03; x26; xa1; x65; x61; x70; x70; x69; x64; xf5; x63; x66; x6d; x74; x64; x6e; x6f; x6e; x65; x67; x61; x74; x74; x53; x74; x6d; x74; xa0] |}; ra_challenge := (blit "challenge"); ra_origin := OneOrigin (lit "https://example.com"); ra_token_binding := None; ra_require_uv := false; ra_extensions := (Some [TX_AUTH_SIMPLE]) |})));
    (raises [RegistrationError]) (out_result (run (constant_registrar (Raise (Py (EOther 0))) (Raise (Py (EOther 0))) (Raise (Py (EOther 0)))) tt (handle_credential_attestation ex_world {| ra_user := {| us_name := (lit "user"); us_icon := None; us_id := (blit "user-id"); us_display_name := (lit "username") |}; ra_rp := {| rp_name := (lit "example.com"); rp_icon := None; rp_id := (lit "example.com") |}; ra_credential := {| cr_id := (lit "Y3JlZGVudGlhbC1pZA=="); cr_type := (lit "credential-type"); cr_raw_id := (blit "credential-id"); cr_response := AttestationResponse (blit "{""type"": ""webauthn.create"", ""challenge"": ""Y2hhbGxlbmdl"", ""origin"": ""https://example.com""}") [xa3; x68; x61; x75; x74; x68; x44; x61; x74; x61; x58; x99; x00; x00; x00; x00; x00; x00; x00; x00; x00; x00; x00; x00; x00; x00; x00; x00; x00; x00; x00; x00; x00; x00; x00; x00; xee; xfb; xec; xcb; xa4; x7d; xc4; x6b; xc1; x00; x00; x00; x00; x7a; x7a; x7a; x7a; x7a; x7a; x7a; x7a; x7a; x7a; x7a; x7a; x7a; x7a; x7a; x7a; x00; x0d; x63; x72; x65; x64; x65; x6e; x74; x69; x61; x6c; x2d; x69; x64; xa5; x22; x58; x20; x00; x05; x99; x06; x4c; x0e; x29; xce; x80; xd6; xb8; x12; x91; x31; xe9; x22; x02; x8b; x0a; x4e; x8d; x03; xf4; x2c; x66; x35; x39; xa8; xac; x46; x5e; xc4; x21; x58; x20; x00; x56; x50; x13; x20; x47; xc3; x96; x35; x73; xdc; x20; x8c; x7e; xa4; xa2; x41; x21; xba; x4f; xd1; x0c; xce; x99; x2c; xf0; x6c; x9f; x7a; x2b; x11; x94; x20; x01; x01; x02; x03; x26; xa1; x65; x61; x70; x70; x69; x64; xf5; x63; x66; x6d; x74; x64; x6e; x6f; x6e; x65; x67; x61; x74; x74; x53; x74; x6d; x74; xa0] |}; ra_challenge := (blit "challenge"); ra_origin := OneOrigin (lit "https://example.com"); ra_token_binding := None; ra_require_uv := false; ra_extensions := None |})));
    (raises [RegistrationError]) (out_result (run (constant_registrar (Ok (Some {| cdt_key := (EC2Key {| kb_kty := (FValue, KT_EC2); kb_kid := None; kb_alg := (Some (FValue, ES256)); kb_key_ops := None; kb_base_IV := None |} [x00; x56; x50; x13; x20; x47; xc3; x96; x35; x73; xdc; x20; x8c; x7e; xa4; xa2; x41; x21; xba; x4f; xd1; x0c; xce; x99; x2c; xf0; x6c; x9f; x7a; x2b; x11; x94] [x00; x05; x99; x06; x4c; x0e; x29; xce; x80; xd6; xb8; x12; x91; x31; xe9; x22; x02; x8b; x0a; x4e; x8d; x03; xf4; x2c; x66; x35; x39; xa8; xac; x46; x5e; xc4] (FValue, P_256)); cdt_sign_count := None; cdt_user := {| us_name := (lit "user"); us_icon := None; us_id := (blit "user-id"); us_display_name := (lit "username") |}; cdt_rp := None |})) (Ok (Some (VStr (lit "Error")))) (Ok (Some (VStr (lit "Error"))))) tt (handle_credential_attestation ex_world {| ra_user := {| us_name := (lit "user"); us_icon := None; us_id := (blit "user-id"); us_display_name := (lit "username") |}; ra_rp := {| rp_name := (lit "example.com"); rp_icon := None; rp_id := (lit "example.com") |}; ra_credential := {| cr_id := (lit "Y3JlZGVudGlhbC1pZA=="); cr_type := (lit "credential-type"); cr_raw_id := (blit "credential-id"); cr_response := AttestationResponse (blit "{""type"": ""webauthn.create"", ""challenge"": ""Y2hhbGxlbmdl"", ""origin"": ""https://example.com""}") [xa3; x68; x61; x75; x74; x68; x44; x61; x74; x61; x58; x99; x00; x00; x00; x00; x00; x00; x00; x00; x00; x00; x00; x00; x00; x00; x00; x00; x00; x00; x00; x00; x00; x00; x00; x00; xee; xfb; xec; xcb; xa4; x7d; xc4; x6b; xc1; x00; x00; x00; x00; x7a; x7a; x7a; x7a; x7a; x7a; x7a; x7a; x7a; x7a; x7a; x7a; x7a; x7a; x7a; x7a; x00; x0d; x63; x72; x65; x64; x65; x6e; x74; x69; x61; x6c; x2d; x69; x64; xa5; x22; x58; x20; x00; x05; x99; x06; x4c; x0e; x29; xce; x80; xd6; xb8; x12; x91; x31; xe9; x22; x02; x8b; x0a; x4e; x8d; x03; xf4; x2c; x66; x35; x39; xa8; xac; x46; x5e; xc4; x21; x58; x20; x00; x56; x50; x13; x20; x47; xc3; x96; x35; x73; xdc; x20; x8c; x7e; xa4; xa2; x41; x21; xba; x4f; xd1; x0c; xce; x99; x2c; xf0; x6c; x9f; x7a; x2b; x11; x94; x20; x01; x01; x02; x03; x26; xa1; x65; x61; x70; x70; x69; x64; xf5; x63; x66; x6d; x74; x64; x6e; x6f; x6e; x65; x67; x61; x74; x74; x53; x74; x6d; x74; xa0] |}; ra_challenge := (blit "challenge"); ra_origin := OneOrigin (lit "https://example.com"); ra_token_binding := None; ra_require_uv := false; ra_extensions := None |}))) ] = true.
Proof. vm_compute. reflexivity. Qed.

(** tests/test_backends.py:524-577 *)
Example test_credentials_backend_request_success :
  forallb (fun b : bool => b)
  [ (returns) (out_result (run (constant_registrar (Ok (Some {| cdt_key := (EC2Key {| kb_kty := (FValue, KT_EC2); kb_kid := None; kb_alg := (Some (FValue, ES256)); kb_key_ops := None; kb_base_IV := None |} [x00; x56; x50; x13; x20; x47; xc3; x96; x35; x73; xdc; x20; x8c; x7e; xa4; xa2; x41; x21; xba; x4f; xd1; x0c; xce; x99; x2c; xf0; x6c; x9f; x7a; x2b; x11; x94] [x00; x05; x99; x06; x4c; x0e; x29; xce; x80; xd6; xb8; x12; x91; x31; xe9; x22; x02; x8b; x0a; x4e; x8d; x03; xf4; x2c; x66; x35; x39; xa8; xac; x46; x5e; xc4] (FValue, P_256)); cdt_sign_count := None; cdt_user := {| us_name := (lit "user"); us_icon := None; us_id := (blit "user-id"); us_display_name := (lit "username") |}; cdt_rp := None |})) (Ok None) (Ok None)) tt (handle_credential_assertion ex_world {| aa_rp := (Some {| rp_name := (lit "example.com"); rp_icon := None; rp_id := (lit "example.com") |}); aa_user := (Some {| us_name := (lit "user"); us_icon := None; us_id := (blit "user-id"); us_display_name := (lit "username") |}); aa_allow := None; aa_ignore_clone := false; aa_credential := {| cr_id := (lit "Y3JlZGVudGlhbC1pZA=="); cr_type := (lit "credential-type"); cr_raw_id := (blit "credential-id"); cr_response := AssertionResponse (blit "{""type"": ""webauthn.get"", ""challenge"": ""Y2hhbGxlbmdl"", ""origin"": ""https://example.com""}") [x00; x00; x00; x00; x00; x00; x00; x00; x00; x00; x00; x00; x00; x00; x00; x00; x00; x00; x00; x00; x00; x00; x00; x00; xee; xfb; xec; xcb; xa4; x7d; xc4; x6b; xc1; x00; x00; x00; x00; x7a; x7a; x7a; x7a; x7a; x7a; x7a; x7a; x7a; x7a; x7a; x7a; x7a; x7a; x7a; x7a; x00; x0d; x63; x72; x65; x64; x65; x6e; x74; x69; x61; x6c; x2d; x69; x64; xa5; x22; x58; x20; x00; x05; x99; x06; x4c; x0e; x29; xce; x80; xd6; xb8; x12; x91; x31; xe9; x22; x02; x8b; x0a; x4e; x8d; x03; xf4; x2c; x66; x35; x39; xa8; xac; x46; x5e; xc4; x21; x58; x20; x00; x56; x50; x13; x20; x47; xc3; x96; x35; x73; xdc; x20; x8c; x7e; xa4; xa2; x41; x21; xba; x4f; xd1; x0c; xce; x99; x2c; xf0; x6c; x9f; x7a; x2b; x11; x94; x20; x01; x01; x02; x03; x26; xa1; x65; x61; x70; x70; x69; x64; xf5] [x00; x00; x00; x00; x00; x00; x00; x00; x00; x00; x00; x00; x00; x00; x00; x00; x00; x00; x00; x00; x00; x00; x00; x00; x9c; xef; x6e; x18; x25; x1b; x5f; xb1] None |}; aa_challenge := (blit "challenge"); aa_origin := OneOrigin (lit "https://example.com"); aa_token_binding := None; aa_require_uv := false; aa_extensions := None |}))) ] = true.
Proof. vm_compute. reflexivity. Qed.

(** tests/test_backends.py:580-1189 *)
Example test_credentials_backend_request_error :
  forallb (fun b : bool => b)
  [ (raises [CredentialNotAllowedError]) (out_result (run (constant_registrar (Ok (Some {| cdt_key := (EC2Key {| kb_kty := (FValue, KT_EC2); kb_kid := None; kb_alg := (Some (FValue, ES256)); kb_key_ops := None; kb_base_IV := None |} [x00; x56; x50; x13; x20; x47; xc3; x96; x35; x73; xdc; x20; x8c; x7e; xa4; xa2; x41; x21; xba; x4f; xd1; x0c; xce; x99; x2c; xf0; x6c; x9f; x7a; x2b; x11; x94] [x00; x05; x99; x06; x4c; x0e; x29; xce; x80; xd6; xb8; x12; x91; x31; xe9; x22; x02; x8b; x0a; x4e; x8d; x03; xf4; x2c; x66; x35; x39; xa8; xac; x46; x5e; xc4] (FValue, P_256)); cdt_sign_count := None; cdt_user := {| us_name := (lit "user"); us_icon := None; us_id := (blit "user-id"); us_display_name := (lit "username") |}; cdt_rp := None |})) (Ok None) (Ok None)) tt (handle_credential_assertion ex_world {| aa_rp := (Some {| rp_name := (lit "example.com"); rp_icon := None; rp_id := (lit "example.com") |}); aa_user := (Some {| us_name := (lit "user"); us_icon := None; us_id := (blit "user-id"); us_display_name := (lit "username") |}); aa_allow := (Some [{| de_id := (blit "cred-id"); de_transports := None |}]); aa_ignore_clone := false; aa_credential := {| cr_id := (lit "Y3JlZGVudGlhbC1pZA=="); cr_type := (lit "credential-type"); cr_raw_id := (blit "credential-id"); cr_response := AssertionResponse (blit "{""type"": ""webauthn.get"", ""challenge"": ""Y2hhbGxlbmdl"", ""origin"": ""https://example.com""}") [x00; x00; x00; x00; x00; x00; x00; x00; x00; x00; x00; x00; x00; x00; x00; x00; x00; x00; x00; x00; x00; x00; x00; x00; xee; xfb; xec; xcb; xa4; x7d; xc4; x6b; xc1; x00; x00; x00; x00; x7a; x7a; x7a; x7a; x7a; x7a; x7a; x7a; x7a; x7a; x7a; x7a; x7a; x7a; x7a; x7a; x00; x0d; x63; x72; x65; x64; x65; x6e; x74; x69; x61; x6c; x2d; x69; x64; xa5; x22; x58; x20; x00; x05; x99; x06; x4c; x0e; x29; xce; x80; xd6; xb8; x12; x91; x31; xe9; x22; x02; x8b; x0a; x4e; x8d; x03; xf4; x2c; x66; x35; x39; xa8; xac; x46; x5e; xc4; x21; x58; x20; x00; x56; x50; x13; x20; x47; xc3; x96; x35; x73; xdc; x20; x8c; x7e; xa4; xa2; x41; x21; xba; x4f; xd1; x0c; xce; x99; x2c; xf0; x6c; x9f; x7a; x2b; x11; x94; x20; x01; x01; x02; x03; x26; xa1; x65; x61; x70; x70; x69; x64; xf5] [x00; x00; x00; x00; x00; x00; x00; x00; x00; x00; x00; x00; x00; x00; x00; x00; x00; x00; x00; x00; x00; x00; x00; x00; x9c; xef; x6e; x18; x25; x1b; x5f; xb1] None |}; aa_challenge := (blit "challenge"); aa_origin := OneOrigin (lit "https://example.com"); aa_token_binding := None; aa_require_uv := false; aa_extensions := None |})));
    (raises [RegistrationError]) (out_result (run (constant_registrar (Raise (Py (EOther 0))) (Raise (Py (EOther 0))) (Raise (Py (EOther 0)))) tt (handle_credential_assertion ex_world {| aa_rp := (Some {| rp_name := (lit "example.com"); rp_icon := None; rp_id := (lit "example.com") |}); aa_user := (Some {| us_name := (lit "user"); us_icon := None; us_id := (blit "user-id"); us_display_name := (lit "username") |}); aa_allow := None; aa_ignore_clone := false; aa_credential := {| cr_id := (lit "Y3JlZGVudGlhbC1pZA=="); cr_type := (lit "credential-type"); cr_raw_id := (blit "credential-id"); cr_response := AssertionResponse (blit "{""type"": ""webauthn.get"", ""challenge"": ""Y2hhbGxlbmdl"", ""origin"": ""https://example.com""}") [x00; x00; x00; x00; x00; x00; x00; x00; x00; x00; x00; x00; x00; x00; x00; x00; x00; x00; x00; x00; x00; x00; x00; x00; xee; xfb; xec; xcb; xa4; x7d; xc4; x6b; xc1; x00; x00; x00; x00; x7a; x7a; x7a; x7a; x7a; x7a; x7a; x7a; x7a; x7a; x7a; x7a; x7a; x7a; x7a; x7a; x00; x0d; x63; x72; x65; x64; x65; x6e; x74; x69; x61; x6c; x2d; x69; x64; xa5; x22; x58; x20; x00; x05; x99; x06; x4c; x0e; x29; xce; x80; xd6; xb8; x12; x91; x31; xe9; x22; x02; x8b; x0a; x4e; x8d; x03; xf4; x2c; x66; x35; x39; xa8; xac; x46; x5e; xc4; x21; x58; x20; x00; x56; x50; x13; x20; x47; xc3; x96; x35; x73; xdc; x20; x8c; x7e; xa4; xa2; x41; x21; xba; x4f; xd1; x0c; xce; x99; x2c; xf0; x6c; x9f; x7a; x2b; x11; x94; x20; x01; x01; x02; x03; x26; xa1; x65; x61; x70; x70; x69; x64; xf5] [x00; x00; x00; x00; x00; x00; x00; x00; x00; x00; x00; x00; x00; x00; x00; x00; x00; x00; x00; x00; x00; x00; x00; x00; x9c; xef; x6e; x18; x25; x1b; x5f; xb1] None |}; aa_challenge := (blit "challenge"); aa_origin := OneOrigin (lit "https://example.com"); aa_token_binding := None; aa_require_uv := false; aa_extensions := None |})));
    (raises [CredentialDataError]) (out_result (run (constant_registrar (Ok None) (Ok None) (Ok None)) tt (handle_credential_assertion ex_world {| aa_rp := (Some {| rp_name := (lit "example.com"); rp_icon := None; rp_id := (lit "example.com") |}); aa_user := (Some {| us_name := (lit "user"); us_icon := None; us_id := (blit "user-id"); us_display_name := (lit "username") |}); aa_allow := None; aa_ignore_clone := false; aa_credential := {| cr_id := (lit "Y3JlZGVudGlhbC1pZA=="); cr_type := (lit "credential-type"); cr_raw_id := (blit "credential-id"); cr_response := AssertionResponse (blit "{""type"": ""webauthn.get"", ""challenge"": ""Y2hhbGxlbmdl"", ""origin"": ""https://example.com""}") [x00; x00; x00; x00; x00; x00; x00; x00; x00; x00; x00; x00; x00; x00; x00; x00; x00; x00; x00; x00; x00; x00; x00; x00; xee; xfb; xec; xcb; xa4; x7d; xc4; x6b; xc1; x00; x00; x00; x00; x7a; x7a; x7a; x7a; x7a; x7a; x7a; x7a; x7a; x7a; x7a; x7a; x7a; x7a; x7a; x7a; x00; x0d; x63; x72; x65; x64; x65; x6e; x74; x69; x61; x6c; x2d; x69; x64; xa5; x22; x58; x20; x00; x05; x99; x06; x4c; x0e; x29; xce; x80; xd6; xb8; x12; x91; x31; xe9; x22; x02; x8b; x0a; x4e; x8d; x03; xf4; x2c; x66; x35; x39; xa8; xac; x46; x5e; xc4; x21; x58; x20; x00; x56; x50; x13; x20; x47; xc3; x96; x35; x73; xdc; x20; x8c; x7e; xa4; xa2; x41; x21; xba; x4f; xd1; x0c; xce; x99; x2c; xf0; x6c; x9f; x7a; x2b; x11; x94; x20; x01; x01; x02; x03; x26; xa1; x65; x61; x70; x70; x69; x64; xf5] [x00; x00; x00; x00; x00; x00; x00; x00; x00; x00; x00; x00; x00; x00; x00; x00; x00; x00; x00; x00; x00; x00; x00; x00; x9c; xef; x6e; x18; x25; x1b; x5f; xb1] None |}; aa_challenge := (blit "challenge"); aa_origin := OneOrigin (lit "https://example.com"); aa_token_binding := None; aa_require_uv := false; aa_extensions := None |})));
    (raises [UserIDError]) (out_result (run (constant_registrar (Ok (Some {| cdt_key := (EC2Key {| kb_kty := (FValue, KT_EC2); kb_kid := None; kb_alg := (Some (FValue, ES256)); kb_key_ops := None; kb_base_IV := None |} [x00; x56; x50; x13; x20; x47; xc3; x96; x35; x73; xdc; x20; x8c; x7e; xa4; xa2; x41; x21; xba; x4f; xd1; x0c; xce; x99; x2c; xf0; x6c; x9f; x7a; x2b; x11; x94] [x00; x05; x99; x06; x4c; x0e; x29; xce; x80; xd6; xb8; x12; x91; x31; xe9; x22; x02; x8b; x0a; x4e; x8d; x03; xf4; x2c; x66; x35; x39; xa8; xac; x46; x5e; xc4] (FValue, P_256)); cdt_sign_count := None; cdt_user := {| us_name := (lit "user"); us_icon := None; us_id := (blit "user-id-mismatch"); us_display_name := (lit "username") |}; cdt_rp := None |})) (Ok None) (Ok None)) tt (handle_credential_assertion ex_world {| aa_rp := (Some {| rp_name := (lit "example.com"); rp_icon := None; rp_id := (lit "example.com") |}); aa_user := (Some {| us_name := (lit "user"); us_icon := None; us_id := (blit "user-id"); us_display_name := (lit "username") |}); aa_allow := None; aa_ignore_clone := false; aa_credential := {| cr_id := (lit "Y3JlZGVudGlhbC1pZA=="); cr_type := (lit "credential-type"); cr_raw_id := (blit "credential-id"); cr_response := AssertionResponse (blit "{""type"": ""webauthn.get"", ""challenge"": ""Y2hhbGxlbmdl"", ""origin"": ""https://example.com""}") [x00; x00; x00; x00; x00; x00; x00; x00; x00; x00; x00; x00; x00; x00; x00; x00; x00; x00; x00; x00; x00; x00; x00; x00; xee; xfb; xec; xcb; xa4; x7d; xc4; x6b; xc1; x00; x00; x00; x00; x7a; x7a; x7a; x7a; x7a; x7a; x7a; x7a; x7a; x7a; x7a; x7a; x7a; x7a; x7a; x7a; x00; x0d; x63; x72; x65; x64; x65; x6e; x74; x69; x61; x6c; x2d; x69; x64; xa5; x22; x58; x20; x00; x05; x99; x06; x4c; x0e; x29; xce; x80; xd6; xb8; x12; x91; x31; xe9; x22; x02; x8b; x0a; x4e; x8d; x03; xf4; x2c; x66; x35; x39; xa8; xac; x46; x5e; xc4; x21; x58; x20; x00; x56; x50; x13; x20; x47; xc3; x96; x35; x73; xdc; x20; x8c; x7e; xa4; xa2; x41; x21; xba; x4f; xd1; x0c; xce; x99; x2c; xf0; x6c; x9f; x7a; x2b; x11; x94; x20; x01; x01; x02; x03; x26; xa1; x65; x61; x70; x70; x69; x64; xf5] [x00; x00; x00; x00; x00; x00; x00; x00; x00; x00; x00; x00; x00; x00; x00; x00; x00; x00; x00; x00; x00; x00; x00; x00; x9c; xef; x6e; x18; x25; x1b; x5f; xb1] None |}; aa_challenge := (blit "challenge"); aa_origin := OneOrigin (lit "https://example.com"); aa_token_binding := None; aa_require_uv := false; aa_extensions := None |})));
    (raises [UserHandleError]) (out_result (run (constant_registrar (Ok (Some {| cdt_key := (EC2Key {| kb_kty := (FValue, KT_EC2); kb_kid := None; kb_alg := (Some (FValue, ES256)); kb_key_ops := None; kb_base_IV := None |} [x00; x56; x50; x13; x20; x47; xc3; x96; x35; x73; xdc; x20; x8c; x7e; xa4; xa2; x41; x21; xba; x4f; xd1; x0c; xce; x99; x2c; xf0; x6c; x9f; x7a; x2b; x11; x94] [x00; x05; x99; x06; x4c; x0e; x29; xce; x80; xd6; xb8; x12; x91; x31; xe9; x22; x02; x8b; x0a; x4e; x8d; x03; xf4; x2c; x66; x35; x39; xa8; xac; x46; x5e; xc4] (FValue, P_256)); cdt_sign_count := None; cdt_user := {| us_name := (lit "user"); us_icon := None; us_id := (blit "user-id"); us_display_name := (lit "username") |}; cdt_rp := None |})) (Ok None) (Ok None)) tt (handle_credential_assertion ex_world {| aa_rp := (Some {| rp_name := (lit "example.com"); rp_icon := None; rp_id := (lit "example.com") |}); aa_user := None; aa_allow := None; aa_ignore_clone := false; aa_credential := {| cr_id := (lit "Y3JlZGVudGlhbC1pZA=="); cr_type := (lit "credential-type"); cr_raw_id := (blit "credential-id"); cr_response := AssertionResponse (blit "{""type"": ""webauthn.get"", ""challenge"": ""Y2hhbGxlbmdl"", ""origin"": ""https://example.com""}") [x00; x00; x00; x00; x00; x00; x00; x00; x00; x00; x00; x00; x00; x00; x00; x00; x00; x00; x00; x00; x00; x00; x00; x00; xee; xfb; xec; xcb; xa4; x7d; xc4; x6b; xc1; x00; x00; x00; x00; x7a; x7a; x7a; x7a; x7a; x7a; x7a; x7a; x7a; x7a; x7a; x7a; x7a; x7a; x7a; x7a; x00; x0d; x63; x72; x65; x64; x65; x6e; x74; x69; x61; x6c; x2d; x69; x64; xa5; x22; x58; x20; x00; x05; x99; x06; x4c; x0e; x29; xce; x80; xd6; xb8; x12; x91; x31; xe9; x22; x02; x8b; x0a; x4e; x8d; x03; xf4; x2c; x66; x35; x39; xa8; xac; x46; x5e; xc4; x21; x58; x20; x00; x56; x50; x13; x20; x47; xc3; x96; x35; x73; xdc; x20; x8c; x7e; xa4; xa2; x41; x21; xba; x4f; xd1; x0c; xce; x99; x2c; xf0; x6c; x9f; x7a; x2b; x11; x94; x20; x01; x01; x02; x03; x26; xa1; x65; x61; x70; x70; x69; x64; xf5] [x00; x00; x00; x00; x00; x00; x00; x00; x00; x00; x00; x00; x00; x00; x00; x00; x00; x00; x00; x00; x00; x00; x00; x00; x9c; xef; x6e; x18; x25; x1b; x5f; xb1] None |}; aa_challenge := (blit "challenge"); aa_origin := OneOrigin (lit "https://example.com"); aa_token_binding := None; aa_require_uv := false; aa_extensions := None |})));
    (raises [RPNotFoundError]) (out_result (run (constant_registrar (Ok (Some {| cdt_key := (EC2Key {| kb_kty := (FValue, KT_EC2); kb_kid := None; kb_alg := (Some (FValue, ES256)); kb_key_ops := None; kb_base_IV := None |} [x00; x56; x50; x13; x20; x47; xc3; x96; x35; x73; xdc; x20; x8c; x7e; xa4; xa2; x41; x21; xba; x4f; xd1; x0c; xce; x99; x2c; xf0; x6c; x9f; x7a; x2b; x11; x94] [x00; x05; x99; x06; x4c; x0e; x29; xce; x80; xd6; xb8; x12; x91; x31; xe9; x22; x02; x8b; x0a; x4e; x8d; x03; xf4; x2c; x66; x35; x39; xa8; xac; x46; x5e; xc4] (FValue, P_256)); cdt_sign_count := None; cdt_user := {| us_name := (lit "user"); us_icon := None; us_id := (blit "user-id"); us_display_name := (lit "username") |}; cdt_rp := None |})) (Ok None) (Ok None)) tt (handle_credential_assertion ex_world {| aa_rp := None; aa_user := (Some {| us_name := (lit "user"); us_icon := None; us_id := (blit "user-id"); us_display_name := (lit "username") |}); aa_allow := None; aa_ignore_clone := false; aa_credential := {| cr_id := (lit "Y3JlZGVudGlhbC1pZA=="); cr_type := (lit "credential-type"); cr_raw_id := (blit "credential-id"); cr_response := AssertionResponse (blit "{""type"": ""webauthn.get"", ""challenge"": ""Y2hhbGxlbmdl"", ""origin"": ""https://example.com""}") [x00; x00; x00; x00; x00; x00; x00; x00; x00; x00; x00; x00; x00; x00; x00; x00; x00; x00; x00; x00; x00; x00; x00; x00; xee; xfb; xec; xcb; xa4; x7d; xc4; x6b; xc1; x00; x00; x00; x00; x7a; x7a; x7a; x7a; x7a; x7a; x7a; x7a; x7a; x7a; x7a; x7a; x7a; x7a; x7a; x7a; x00; x0d; x63; x72; x65; x64; x65; x6e; x74; x69; x61; x6c; x2d; x69; x64; xa5; x22; x58; x20; x00; x05; x99; x06; x4c; x0e; x29; xce; x80; xd6; xb8; x12; x91; x31; xe9; x22; x02; x8b; x0a; x4e; x8d; x03; xf4; x2c; x66; x35; x39; xa8; xac; x46; x5e; xc4; x21; x58; x20; x00; x56; x50; x13; x20; x47; xc3; x96; x35; x73; xdc; x20; x8c; x7e; xa4; xa2; x41; x21; xba; x4f; xd1; x0c; xce; x99; x2c; xf0; x6c; x9f; x7a; x2b; x11; x94; x20; x01; x01; x02; x03; x26; xa1; x65; x61; x70; x70; x69; x64; xf5] [x00; x00; x00; x00; x00; x00; x00; x00; x00; x00; x00; x00; x00; x00; x00; x00; x00; x00; x00; x00; x00; x00; x00; x00; x9c; xef; x6e; x18; x25; x1b; x5f; xb1] None |}; aa_challenge := (blit "challenge"); aa_origin := OneOrigin (lit "https://example.com"); aa_token_binding := None; aa_require_uv := false; aa_extensions := None |})));
    (raises [RPIDError]) (out_result (run (constant_registrar (Ok (Some {| cdt_key := (EC2Key {| kb_kty := (FValue, KT_EC2); kb_kid := None; kb_alg := (Some (FValue, ES256)); kb_key_ops := None; kb_base_IV := None |} [x00; x56; x50; x13; x20; x47; xc3; x96; x35; x73; xdc; x20; x8c; x7e; xa4; xa2; x41; x21; xba; x4f; xd1; x0c; xce; x99; x2c; xf0; x6c; x9f; x7a; x2b; x11; x94] [x00; x05; x99; x06; x4c; x0e; x29; xce; x80; xd6; xb8; x12; x91; x31; xe9; x22; x02; x8b; x0a; x4e; x8d; x03; xf4; x2c; x66; x35; x39; xa8; xac; x46; x5e; xc4] (FValue, P_256)); cdt_sign_count := None; cdt_user := {| us_name := (lit "user"); us_icon := None; us_id := (blit "user-id"); us_display_name := (lit "username") |}; cdt_rp := (Some {| rp_name := (lit "example.com"); rp_icon := None; rp_id := (lit "mismatch") |}) |})) (Ok None) (Ok None)) tt (handle_credential_assertion ex_world {| aa_rp := (Some {| rp_name := (lit "example.com"); rp_icon := None; rp_id := (lit "example.com") |}); aa_user := (Some {| us_name := (lit "user"); us_icon := None; us_id := (blit "user-id"); us_display_name := (lit "username") |}); aa_allow := None; aa_ignore_clone := false; aa_credential := {| cr_id := (lit "Y3JlZGVudGlhbC1pZA=="); cr_type := (lit "credential-type"); cr_raw_id := (blit "credential-id"); cr_response := AssertionResponse (blit "{""type"": ""webauthn.get"", ""challenge"": ""Y2hhbGxlbmdl"", ""origin"": ""https://example.com""}") [x00; x00; x00; x00; x00; x00; x00; x00; x00; x00; x00; x00; x00; x00; x00; x00; x00; x00; x00; x00; x00; x00; x00; x00; xee; xfb; xec; xcb; xa4; x7d; xc4; x6b; xc1; x00; x00; x00; x00; x7a; x7a; x7a; x7a; x7a; x7a; x7a; x7a; x7a; x7a; x7a; x7a; x7a; x7a; x7a; x7a; x00; x0d; x63; x72; x65; x64; x65; x6e; x74; x69; x61; x6c; x2d; x69; x64; xa5; x22; x58; x20; x00; x05; x99; x06; x4c; x0e; x29; xce; x80; xd6; xb8; x12; x91; x31; xe9; x22; x02; x8b; x0a; x4e; x8d; x03; xf4; x2c; x66; x35; x39; xa8; xac; x46; x5e; xc4; x21; x58; x20; x00; x56; x50; x13; x20; x47; xc3; x96; x35; x73; xdc; x20; x8c; x7e; xa4; xa2; x41; x21; xba; x4f; xd1; x0c; xce; x99; x2c; xf0; x6c; x9f; x7a; x2b; x11; x94; x20; x01; x01; x02; x03; x26; xa1; x65; x61; x70; x70; x69; x64; xf5] [x00; x00; x00; x00; x00; x00; x00; x00; x00; x00; x00; x00; x00; x00; x00; x00; x00; x00; x00; x00; x00; x00; x00; x00; x9c; xef; x6e; x18; x25; x1b; x5f; xb1] None |}; aa_challenge := (blit "challenge"); aa_origin := OneOrigin (lit "https://example.com"); aa_token_binding := None; aa_require_uv := false; aa_extensions := None |})));
    (returns) (out_result (run (constant_registrar (Ok (Some {| cdt_key := (EC2Key {| kb_kty := (FValue, KT_EC2); kb_kid := None; kb_alg := (Some (FValue, ES256)); kb_key_ops := None; kb_base_IV := None |} [x00; x56; x50; x13; x20; x47; xc3; x96; x35; x73; xdc; x20; x8c; x7e; xa4; xa2; x41; x21; xba; x4f; xd1; x0c; xce; x99; x2c; xf0; x6c; x9f; x7a; x2b; x11; x94] [x00; x05; x99; x06; x4c; x0e; x29; xce; x80; xd6; xb8; x12; x91; x31; xe9; x22; x02; x8b; x0a; x4e; x8d; x03; xf4; x2c; x66; x35; x39; xa8; xac; x46; x5e; xc4] (FValue, P_256)); cdt_sign_count := None; cdt_user := {| us_name := (lit "user"); us_icon := None; us_id := (blit "user-id"); us_display_name := (lit "username") |}; cdt_rp := (Some {| rp_name := (lit "example.com"); rp_icon := None; rp_id := (lit "example.com") |}) |})) (Ok None) (Ok None)) tt (handle_credential_assertion ex_world {| aa_rp := None; aa_user := (Some {| us_name := (lit "user"); us_icon := None; us_id := (blit "user-id"); us_display_name := (lit "username") |}); aa_allow := None; aa_ignore_clone := false; aa_credential := {| cr_id := (lit "Y3JlZGVudGlhbC1pZA=="); cr_type := (lit "credential-type"); cr_raw_id := (blit "credential-id"); cr_response := AssertionResponse (blit "{""type"": ""webauthn.get"", ""challenge"": ""Y2hhbGxlbmdl"", ""origin"": ""https://example.com""}") [x00; x00; x00; x00; x00; x00; x00; x00; x00; x00; x00; x00; x00; x00; x00; x00; x00; x00; x00; x00; x00; x00; x00; x00; xee; xfb; xec; xcb; xa4; x7d; xc4; x6b; xc1; x00; x00; x00; x00; x7a; x7a; x7a; x7a; x7a; x7a; x7a; x7a; x7a; x7a; x7a; x7a; x7a; x7a; x7a; x7a; x00; x0d; x63; x72; x65; x64; x65; x6e; x74; x69; x61; x6c; x2d; x69; x64; xa5; x22; x58; x20; x00; x05; x99; x06; x4c; x0e; x29; xce; x80; xd6; xb8; x12; x91; x31; xe9; x22; x02; x8b; x0a; x4e; x8d; x03; xf4; x2c; x66; x35; x39; xa8; xac; x46; x5e; xc4; x21; x58; x20; x00; x56; x50; x13; x20; x47; xc3; x96; x35; x73; xdc; x20; x8c; x7e; xa4; xa2; x41; x21; xba; x4f; xd1; x0c; xce; x99; x2c; xf0; x6c; x9f; x7a; x2b; x11; x94; x20; x01; x01; x02; x03; x26; xa1; x65; x61; x70; x70; x69; x64; xf5] [x00; x00; x00; x00; x00; x00; x00; x00; x00; x00; x00; x00; x00; x00; x00; x00; x00; x00; x00; x00; x00; x00; x00; x00; x9c; xef; x6e; x18; x25; x1b; x5f; xb1] None |}; aa_challenge := (blit "challenge"); aa_origin := OneOrigin (lit "https://example.com"); aa_token_binding := None; aa_require_uv := false; aa_extensions := None |})));
    (raises [UserHandleError]) (out_result (run (constant_registrar (Ok (Some {| cdt_key := (EC2Key {| kb_kty := (FValue, KT_EC2); kb_kid := None; kb_alg := (Some (FValue, ES256)); kb_key_ops := None; kb_base_IV := None |} [x00; x56; x50; x13; x20; x47; xc3; x96; x35; x73; xdc; x20; x8c; x7e; xa4; xa2; x41; x21; xba; x4f; xd1; x0c; xce; x99; x2c; xf0; x6c; x9f; x7a; x2b; x11; x94] [x00; x05; x99; x06; x4c; x0e; x29; xce; x80; xd6; xb8; x12; x91; x31; xe9; x22; x02; x8b; x0a; x4e; x8d; x03; xf4; x2c; x66; x35; x39; xa8; xac; x46; x5e; xc4] (FValue, P_256)); cdt_sign_count := None; cdt_user := {| us_name := (lit "user"); us_icon := None; us_id := (blit "user-id"); us_display_name := (lit "username") |}; cdt_rp := None |})) (Ok None) (Ok None)) tt (handle_credential_assertion ex_world {| aa_rp := (Some {| rp_name := (lit "example.com"); rp_icon := None; rp_id := (lit "example.com") |}); aa_user := (Some {| us_name := (lit "user"); us_icon := None; us_id := (blit "user-id"); us_display_name := (lit "username") |}); aa_allow := None; aa_ignore_clone := false; aa_credential := {| cr_id := (lit "Y3JlZGVudGlhbC1pZA=="); cr_type := (lit "credential-type"); cr_raw_id := (blit "credential-id"); cr_response := AssertionResponse (blit "{""type"": ""webauthn.get"", ""challenge"": ""Y2hhbGxlbmdl"", ""origin"": ""https://example.com""}") [x00; x00; x00; x00; x00; x00; x00; x00; x00; x00; x00; x00; x00; x00; x00; x00; x00; x00; x00; x00; x00; x00; x00; x00; xee; xfb; xec; xcb; xa4; x7d; xc4; x6b; xc1; x00; x00; x00; x00; x7a; x7a; x7a; x7a; x7a; x7a; x7a; x7a; x7a; x7a; x7a; x7a; x7a; x7a; x7a; x7a; x00; x0d; x63; x72; x65; x64; x65; x6e; x74; x69; x61; x6c; x2d; x69; x64; xa5; x22; x58; x20; x00; x05; x99; x06; x4c; x0e; x29; xce; x80; xd6; xb8; x12; x91; x31; xe9; x22; x02; x8b; x0a; x4e; x8d; x03; xf4; x2c; x66; x35; x39; xa8; xac; x46; x5e; xc4; x21; x58; x20; x00; x56; x50; x13; x20; x47; xc3; x96; x35; x73; xdc; x20; x8c; x7e; xa4; xa2; x41; x21; xba; x4f; xd1; x0c; xce; x99; x2c; xf0; x6c; x9f; x7a; x2b; x11; x94; x20; x01; x01; x02; x03; x26; xa1; x65; x61; x70; x70; x69; x64; xf5] [x00; x00; x00; x00; x00; x00; x00; x00; x00; x00; x00; x00; x00; x00; x00; x00; x00; x00; x00; x00; x00; x00; x00; x00; x9c; xef; x6e; x18; x25; x1b; x5f; xb1] (Some (blit "mismatch")) |}; aa_challenge := (blit "challenge"); aa_origin := OneOrigin (lit "https://example.com"); aa_token_binding := None; aa_require_uv := false; aa_extensions := None |})));
    (raises [ClientDataTypeError]) (out_result (run (constant_registrar (Ok (Some {| cdt_key := (EC2Key {| kb_kty := (FValue, KT_EC2); kb_kid := None; kb_alg := (Some (FValue, ES256)); kb_key_ops := None; kb_base_IV := None |} [x00; x56; x50; x13; x20; x47; xc3; x96; x35; x73; xdc; x20; x8c; x7e; xa4; xa2; x41; x21; xba; x4f; xd1; x0c; xce; x99; x2c; xf0; x6c; x9f; x7a; x2b; x11; x94] [x00; x05; x99; x06; x4c; x0e; x29; xce; x80; xd6; xb8; x12; x91; x31; xe9; x22; x02; x8b; x0a; x4e; x8d; x03; xf4; x2c; x66; x35; x39; xa8; xac; x46; x5e; xc4] (FValue, P_256)); cdt_sign_count := None; cdt_user := {| us_name := (lit "user"); us_icon := None; us_id := (blit "user-id"); us_display_name := (lit "username") |}; cdt_rp := None |})) (Ok None) (Ok None)) tt (handle_credential_assertion ex_world {| aa_rp := (Some {| rp_name := (lit "example.com"); rp_icon := None; rp_id := (lit "example.com") |}); aa_user := (Some {| us_name := (lit "user"); us_icon := None; us_id := (blit "user-id"); us_display_name := (lit "username") |}); aa_allow := None; aa_ignore_clone := false; aa_credential := {| cr_id := (lit "Y3JlZGVudGlhbC1pZA=="); cr_type := (lit "credential-type"); cr_raw_id := (blit "credential-id"); cr_response := AssertionResponse (blit "{""type"": ""webauthn.create"", ""challenge"": ""Y2hhbGxlbmdl"", ""origin"": ""https://example.com""}") [x00; x00; x00; x00; x00; x00; x00; x00; x00; x00; x00; x00; x00; x00; x00; x00; x00; x00; x00; x00; x00; x00; x00; x00; xee; xfb; xec; xcb; xa4; x7d; xc4; x6b; xc1; x00; x00; x00; x00; x7a; x7a; x7a; x7a; x7a; x7a; x7a; x7a; x7a; x7a; x7a; x7a; x7a; x7a; x7a; x7a; x00; x0d; x63; x72; x65; x64; x65; x6e; x74; x69; x61; x6c; x2d; x69; x64; xa5; x22; x58; x20; x00; x05; x99; x06; x4c; x0e; x29; xce; x80; xd6; xb8; x12; x91; x31; xe9; x22; x02; x8b; x0a; x4e; x8d; x03; xf4; x2c; x66; x35; x39; xa8; xac; x46; x5e; xc4; x21; x58; x20; x00; x56; x50; x13; x20; x47; xc3; x96; x35; x73; xdc; x20; x8c; x7e; xa4; xa2; x41; x21; xba; x4f; xd1; x0c; xce; x99; x2c; xf0; x6c; x9f; x7a; x2b; x11; x94; x20; x01; x01; x02; x03; x26; xa1; x65; x61; x70; x70; x69; x64; xf5] [x00; x00; x00; x00; x00; x00; x00; x00; x00; x00; x00; x00; x00; x00; x00; x00; x00; x00; x00; x00; x00; x00; x00; x00; xaf; x15; x0a; x1d; xc4; x9d; x91; xbb] None |}; aa_challenge := (blit "challenge"); aa_origin := OneOrigin (lit "https://example.com"); aa_token_binding := None; aa_require_uv := false; aa_extensions := None |})));
    (raises [DecodingError]) (out_result (run (constant_registrar (Ok (Some {| cdt_key := (EC2Key {| kb_kty := (FValue, KT_EC2); kb_kid := None; kb_alg := (Some (FValue, ES256)); kb_key_ops := None; kb_base_IV := None |} [x00; x56; x50; x13; x20; x47; xc3; x96; x35; x73; xdc; x20; x8c; x7e; xa4; xa2; x41; x21; xba; x4f; xd1; x0c; xce; x99; x2c; xf0; x6c; x9f; x7a; x2b; x11; x94] [x00; x05; x99; x06; x4c; x0e; x29; xce; x80; xd6; xb8; x12; x91; x31; xe9; x22; x02; x8b; x0a; x4e; x8d; x03; xf4; x2c; x66; x35; x39; xa8; xac; x46; x5e; xc4] (FValue, P_256)); cdt_sign_count := None; cdt_user := {| us_name := (lit "user"); us_icon := None; us_id := (blit "user-id"); us_display_name := (lit "username") |}; cdt_rp := None |})) (Ok None) (Ok None)) tt (handle_credential_assertion ex_world {| aa_rp := (Some {| rp_name := (lit "example.com"); rp_icon := None; rp_id := (lit "example.com") |}); aa_user := (Some {| us_name := (lit "user"); us_icon := None; us_id := (blit "user-id"); us_display_name := (lit "username") |}); aa_allow := None; aa_ignore_clone := false; aa_credential := {| cr_id := (lit "Y3JlZGVudGlhbC1pZA=="); cr_type := (lit "credential-type"); cr_raw_id := (blit "credential-id"); cr_response := AssertionResponse (blit "{""type"": ""webauthn.get"", ""challenge"": ""\u0090\u0091\u0092"", ""origin"": ""https://example.com""}") [x00; x00; x00; x00; x00; x00; x00; x00; x00; x00; x00; x00; x00; x00; x00; x00; x00; x00; x00; x00; x00; x00; x00; x00; xee; xfb; xec; xcb; xa4; x7d; xc4; x6b; xc1; x00; x00; x00; x00; x7a; x7a; x7a; x7a; x7a; x7a; x7a; x7a; x7a; x7a; x7a; x7a; x7a; x7a; x7a; x7a; x00; x0d; x63; x72; x65; x64; x65; x6e; x74; x69; x61; x6c; x2d; x69; x64; xa5; x22; x58; x20; x00; x05; x99; x06; x4c; x0e; x29; xce; x80; xd6; xb8; x12; x91; x31; xe9; x22; x02; x8b; x0a; x4e; x8d; x03; xf4; x2c; x66; x35; x39; xa8; xac; x46; x5e; xc4; x21; x58; x20; x00; x56; x50; x13; x20; x47; xc3; x96; x35; x73; xdc; x20; x8c; x7e; xa4; xa2; x41; x21; xba; x4f; xd1; x0c; xce; x99; x2c; xf0; x6c; x9f; x7a; x2b; x11; x94; x20; x01; x01; x02; x03; x26; xa1; x65; x61; x70; x70; x69; x64; xf5] [x00; x00; x00; x00; x00; x00; x00; x00; x00; x00; x00; x00; x00; x00; x00; x00; x00; x00; x00; x00; x00; x00; x00; x00; xb7; x05; x0f; xeb; x6a; xfa; xf5; xd1] None |}; aa_challenge := (blit "challenge"); aa_origin := OneOrigin (lit "https://example.com"); aa_token_binding := None; aa_require_uv := false; aa_extensions := None |})));
    (raises [ChallengeError]) (out_result (run (constant_registrar (Ok (Some {| cdt_key := (EC2Key {| kb_kty := (FValue, KT_EC2); kb_kid := None; kb_alg := (Some (FValue, ES256)); kb_key_ops := None; kb_base_IV := None |} [x00; x56; x50; x13; x20; x47; xc3; x96; x35; x73; xdc; x20; x8c; x7e; xa4; xa2; x41; x21; xba; x4f; xd1; x0c; xce; x99; x2c; xf0; x6c; x9f; x7a; x2b; x11; x94] [x00; x05; x99; x06; x4c; x0e; x29; xce; x80; xd6; xb8; x12; x91; x31; xe9; x22; x02; x8b; x0a; x4e; x8d; x03; xf4; x2c; x66; x35; x39; xa8; xac; x46; x5e; xc4] (FValue, P_256)); cdt_sign_count := None; cdt_user := {| us_name := (lit "user"); us_icon := None; us_id := (blit "user-id"); us_display_name := (lit "username") |}; cdt_rp := None |})) (Ok None) (Ok None)) tt (handle_credential_assertion ex_world {| aa_rp := (Some {| rp_name := (lit "example.com"); rp_icon := None; rp_id := (lit "example.com") |}); aa_user := (Some {| us_name := (lit "user"); us_icon := None; us_id := (blit "user-id"); us_display_name := (lit "username") |}); aa_allow := None; aa_ignore_clone := false; aa_credential := {| cr_id := (lit "Y3JlZGVudGlhbC1pZA=="); cr_type := (lit "credential-type"); cr_raw_id := (blit "credential-id"); cr_response := AssertionResponse (blit "{""type"": ""webauthn.get"", ""challenge"": ""mismatch"", ""origin"": ""https://example.com""}") [x00; x00; x00; x00; x00; x00; x00; x00; x00; x00; x00; x00; x00; x00; x00; x00; x00; x00; x00; x00; x00; x00; x00; x00; xee; xfb; xec; xcb; xa4; x7d; xc4; x6b; xc1; x00; x00; x00; x00; x7a; x7a; x7a; x7a; x7a; x7a; x7a; x7a; x7a; x7a; x7a; x7a; x7a; x7a; x7a; x7a; x00; x0d; x63; x72; x65; x64; x65; x6e; x74; x69; x61; x6c; x2d; x69; x64; xa5; x22; x58; x20; x00; x05; x99; x06; x4c; x0e; x29; xce; x80; xd6; xb8; x12; x91; x31; xe9; x22; x02; x8b; x0a; x4e; x8d; x03; xf4; x2c; x66; x35; x39; xa8; xac; x46; x5e; xc4; x21; x58; x20; x00; x56; x50; x13; x20; x47; xc3; x96; x35; x73; xdc; x20; x8c; x7e; xa4; xa2; x41; x21; xba; x4f; xd1; x0c; xce; x99; x2c; xf0; x6c; x9f; x7a; x2b; x11; x94; x20; x01; x01; x02; x03; x26; xa1; x65; x61; x70; x70; x69; x64; xf5] [x00; x00; x00; x00; x00; x00; x00; x00; x00; x00; x00; x00; x00; x00; x00; x00; x00; x00; x00; x00; x00; x00; x00; x00; x83; xa0; xed; xc6; xc9; x2c; x84; x3a] None |}; aa_challenge := (blit "challenge"); aa_origin := OneOrigin (lit "https://example.com"); aa_token_binding := None; aa_require_uv := false; aa_extensions := None |})));
    (raises [OriginError]) (out_result (run (constant_registrar (Ok (Some {| cdt_key := (EC2Key {| kb_kty := (FValue, KT_EC2); kb_kid := None; kb_alg := (Some (FValue, ES256)); kb_key_ops := None; kb_base_IV := None |} [x00; x56; x50; x13; x20; x47; xc3; x96; x35; x73; xdc; x20; x8c; x7e; xa4; xa2; x41; x21; xba; x4f; xd1; x0c; xce; x99; x2c; xf0; x6c; x9f; x7a; x2b; x11; x94] [x00; x05; x99; x06; x4c; x0e; x29; xce; x80; xd6; xb8; x12; x91; x31; xe9; x22; x02; x8b; x0a; x4e; x8d; x03; xf4; x2c; x66; x35; x39; xa8; xac; x46; x5e; xc4] (FValue, P_256)); cdt_sign_count := None; cdt_user := {| us_name := (lit "user"); us_icon := None; us_id := (blit "user-id"); us_display_name := (lit "username") |}; cdt_rp := None |})) (Ok None) (Ok None)) tt (handle_credential_assertion ex_world {| aa_rp := (Some {| rp_name := (lit "example.com"); rp_icon := None; rp_id := (lit "example.com") |}); aa_user := (Some {| us_name := (lit "user"); us_icon := None; us_id := (blit "user-id"); us_display_name := (lit "username") |}); aa_allow := None; aa_ignore_clone := false; aa_credential := {| cr_id := (lit "Y3JlZGVudGlhbC1pZA=="); cr_type := (lit "credential-type"); cr_raw_id := (blit "credential-id"); cr_response := AssertionResponse (blit "{""type"": ""webauthn.get"", ""challenge"": ""Y2hhbGxlbmdl"", ""origin"": ""https://example.com""}") [x00; x00; x00; x00; x00; x00; x00; x00; x00; x00; x00; x00; x00; x00; x00; x00; x00; x00; x00; x00; x00; x00; x00; x00; xee; xfb; xec; xcb; xa4; x7d; xc4; x6b; xc1; x00; x00; x00; x00; x7a; x7a; x7a; x7a; x7a; x7a; x7a; x7a; x7a; x7a; x7a; x7a; x7a; x7a; x7a; x7a; x00; x0d; x63; x72; x65; x64; x65; x6e; x74; x69; x61; x6c; x2d; x69; x64; xa5; x22; x58; x20; x00; x05; x99; x06; x4c; x0e; x29; xce; x80; xd6; xb8; x12; x91; x31; xe9; x22; x02; x8b; x0a; x4e; x8d; x03; xf4; x2c; x66; x35; x39; xa8; xac; x46; x5e; xc4; x21; x58; x20; x00; x56; x50; x13; x20; x47; xc3; x96; x35; x73; xdc; x20; x8c; x7e; xa4; xa2; x41; x21; xba; x4f; xd1; x0c; xce; x99; x2c; xf0; x6c; x9f; x7a; x2b; x11; x94; x20; x01; x01; x02; x03; x26; xa1; x65; x61; x70; x70; x69; x64; xf5] [x00; x00; x00; x00; x00; x00; x00; x00; x00; x00; x00; x00; x00; x00; x00; x00; x00; x00; x00; x00; x00; x00; x00; x00; x9c; xef; x6e; x18; x25; x1b; x5f; xb1] None |}; aa_challenge := (blit "challenge"); aa_origin := OneOrigin (lit "https://mismatch"); aa_token_binding := None; aa_require_uv := false; aa_extensions := None |})));
    (raises [TokenBindingError]) (out_result (run (constant_registrar (Ok (Some {| cdt_key := (EC2Key {| kb_kty := (FValue, KT_EC2); kb_kid := None; kb_alg := (Some (FValue, ES256)); kb_key_ops := None; kb_base_IV := None |} [x00; x56; x50; x13; x20; x47; xc3; x96; x35; x73; xdc; x20; x8c; x7e; xa4; xa2; x41; x21; xba; x4f; xd1; x0c; xce; x99; x2c; xf0; x6c; x9f; x7a; x2b; x11; x94] [x00; x05; x99; x06; x4c; x0e; x29; xce; x80; xd6; xb8; x12; x91; x31; xe9; x22; x02; x8b; x0a; x4e; x8d; x03; xf4; x2c; x66; x35; x39; xa8; xac; x46; x5e; xc4] (FValue, P_256)); cdt_sign_count := None; cdt_user := {| us_name := (lit "user"); us_icon := None; us_id := (blit "user-id"); us_display_name := (lit "username") |}; cdt_rp := None |})) (Ok None) (Ok None)) tt (handle_credential_assertion ex_world {| aa_rp := (Some {| rp_name := (lit "example.com"); rp_icon := None; rp_id := (lit "example.com") |}); aa_user := (Some {| us_name := (lit "user"); us_icon := None; us_id := (blit "user-id"); us_display_name := (lit "username") |}); aa_allow := None; aa_ignore_clone := false; aa_credential := {| cr_id := (lit "Y3JlZGVudGlhbC1pZA=="); cr_type := (lit "credential-type"); cr_raw_id := (blit "credential-id"); cr_response := AssertionResponse (blit "{""type"": ""webauthn.get"", ""challenge"": ""Y2hhbGxlbmdl"", ""origin"": ""https://example.com""}") [x00; x00; x00; x00; x00; x00; x00; x00; x00; x00; x00; x00; x00; x00; x00; x00; x00; x00; x00; x00; x00; x00; x00; x00; xee; xfb; xec; xcb; xa4; x7d; xc4; x6b; xc1; x00; x00; x00; x00; x7a; x7a; x7a; x7a; x7a; x7a; x7a; x7a; x7a; x7a; x7a; x7a; x7a; x7a; x7a; x7a; x00; x0d; x63; x72; x65; x64; x65; x6e; x74; x69; x61; x6c; x2d; x69; x64; xa5; x22; x58; x20; x00; x05; x99; x06; x4c; x0e; x29; xce; x80; xd6; xb8; x12; x91; x31; xe9; x22; x02; x8b; x0a; x4e; x8d; x03; xf4; x2c; x66; x35; x39; xa8; xac; x46; x5e; xc4; x21; x58; x20; x00; x56; x50; x13; x20; x47; xc3; x96; x35; x73; xdc; x20; x8c; x7e; xa4; xa2; x41; x21; xba; x4f; xd1; x0c; xce; x99; x2c; xf0; x6c; x9f; x7a; x2b; x11; x94; x20; x01; x01; x02; x03; x26; xa1; x65; x61; x70; x70; x69; x64; xf5] [x00; x00; x00; x00; x00; x00; x00; x00; x00; x00; x00; x00; x00; x00; x00; x00; x00; x00; x00; x00; x00; x00; x00; x00; x9c; xef; x6e; x18; x25; x1b; x5f; xb1] None |}; aa_challenge := (blit "challenge"); aa_origin := OneOrigin (lit "https://example.com"); aa_token_binding := (Some {| etb_status := TB_SUPPORTED; etb_id := None |}); aa_require_uv := false; aa_extensions := None |})));
    (raises [TokenBindingError]) (out_result (run (constant_registrar (Ok (Some {| cdt_key := (EC2Key {| kb_kty := (FValue, KT_EC2); kb_kid := None; kb_alg := (Some (FValue, ES256)); kb_key_ops := None; kb_base_IV := None |} [x00; x56; x50; x13; x20; x47; xc3; x96; x35; x73; xdc; x20; x8c; x7e; xa4; xa2; x41; x21; xba; x4f; xd1; x0c; xce; x99; x2c; xf0; x6c; x9f; x7a; x2b; x11; x94] [x00; x05; x99; x06; x4c; x0e; x29; xce; x80; xd6; xb8; x12; x91; x31; xe9; x22; x02; x8b; x0a; x4e; x8d; x03; xf4; x2c; x66; x35; x39; xa8; xac; x46; x5e; xc4] (FValue, P_256)); cdt_sign_count := None; cdt_user := {| us_name := (lit "user"); us_icon := None; us_id := (blit "user-id"); us_display_name := (lit "username") |}; cdt_rp := None |})) (Ok None) (Ok None)) tt (handle_credential_assertion ex_world {| aa_rp := (Some {| rp_name := (lit "example.com"); rp_icon := None; rp_id := (lit "example.com") |}); aa_user := (Some {| us_name := (lit "user"); us_icon := None; us_id := (blit "user-id"); us_display_name := (lit "username") |}); aa_allow := None; aa_ignore_clone := false; aa_credential := {| cr_id := (lit "Y3JlZGVudGlhbC1pZA=="); cr_type := (lit "credential-type"); cr_raw_id := (blit "credential-id"); cr_response := AssertionResponse (blit "{""type"": ""webauthn.get"", ""challenge"": ""Y2hhbGxlbmdl"", ""origin"": ""https://example.com"", ""tokenBinding"": {""status"": ""supported""}}") [x00; x00; x00; x00; x00; x00; x00; x00; x00; x00; x00; x00; x00; x00; x00; x00; x00; x00; x00; x00; x00; x00; x00; x00; xee; xfb; xec; xcb; xa4; x7d; xc4; x6b; xc1; x00; x00; x00; x00; x7a; x7a; x7a; x7a; x7a; x7a; x7a; x7a; x7a; x7a; x7a; x7a; x7a; x7a; x7a; x7a; x00; x0d; x63; x72; x65; x64; x65; x6e; x74; x69; x61; x6c; x2d; x69; x64; xa5; x22; x58; x20; x00; x05; x99; x06; x4c; x0e; x29; xce; x80; xd6; xb8; x12; x91; x31; xe9; x22; x02; x8b; x0a; x4e; x8d; x03; xf4; x2c; x66; x35; x39; xa8; xac; x46; x5e; xc4; x21; x58; x20; x00; x56; x50; x13; x20; x47; xc3; x96; x35; x73; xdc; x20; x8c; x7e; xa4; xa2; x41; x21; xba; x4f; xd1; x0c; xce; x99; x2c; xf0; x6c; x9f; x7a; x2b; x11; x94; x20; x01; x01; x02; x03; x26; xa1; x65; x61; x70; x70; x69; x64; xf5] [x00; x00; x00; x00; x00; x00; x00; x00; x00; x00; x00; x00; x00; x00; x00; x00; x00; x00; x00; x00; x00; x00; x00; x00; x1c; x62; x31; x24; xd1; xfc; xa2; xd6] None |}; aa_challenge := (blit "challenge"); aa_origin := OneOrigin (lit "https://example.com"); aa_token_binding := (Some {| etb_status := TB_PRESENT; etb_id := (Some (lit "token-binding-id")) |}); aa_require_uv := false; aa_extensions := None |})));
    (raises [TokenBindingError]) (out_result (run (constant_registrar (Ok (Some {| cdt_key := (EC2Key {| kb_kty := (FValue, KT_EC2); kb_kid := None; kb_alg := (Some (FValue, ES256)); kb_key_ops := None; kb_base_IV := None |} [x00; x56; x50; x13; x20; x47; xc3; x96; x35; x73; xdc; x20; x8c; x7e; xa4; xa2; x41; x21; xba; x4f; xd1; x0c; xce; x99; x2c; xf0; x6c; x9f; x7a; x2b; x11; x94] [x00; x05; x99; x06; x4c; x0e; x29; xce; x80; xd6; xb8; x12; x91; x31; xe9; x22; x02; x8b; x0a; x4e; x8d; x03; xf4; x2c; x66; x35; x39; xa8; xac; x46; x5e; xc4] (FValue, P_256)); cdt_sign_count := None; cdt_user := {| us_name := (lit "user"); us_icon := None; us_id := (blit "user-id"); us_display_name := (lit "username") |}; cdt_rp := None |})) (Ok None) (Ok None)) tt (handle_credential_assertion ex_world {| aa_rp := (Some {| rp_name := (lit "example.com"); rp_icon := None; rp_id := (lit "example.com") |}); aa_user := (Some {| us_name := (lit "user"); us_icon := None; us_id := (blit "user-id"); us_display_name := (lit "username") |}); aa_allow := None; aa_ignore_clone := false; aa_credential := {| cr_id := (lit "Y3JlZGVudGlhbC1pZA=="); cr_type := (lit "credential-type"); cr_raw_id := (blit "credential-id"); cr_response := AssertionResponse (blit "{""type"": ""webauthn.get"", ""challenge"": ""Y2hhbGxlbmdl"", ""origin"": ""https://example.com"", ""tokenBinding"": {""status"": ""present"", ""id"": ""token-binding-id-mismatch""}}") [x00; x00; x00; x00; x00; x00; x00; x00; x00; x00; x00; x00; x00; x00; x00; x00; x00; x00; x00; x00; x00; x00; x00; x00; xee; xfb; xec; xcb; xa4; x7d; xc4; x6b; xc1; x00; x00; x00; x00; x7a; x7a; x7a; x7a; x7a; x7a; x7a; x7a; x7a; x7a; x7a; x7a; x7a; x7a; x7a; x7a; x00; x0d; x63; x72; x65; x64; x65; x6e; x74; x69; x61; x6c; x2d; x69; x64; xa5; x22; x58; x20; x00; x05; x99; x06; x4c; x0e; x29; xce; x80; xd6; xb8; x12; x91; x31; xe9; x22; x02; x8b; x0a; x4e; x8d; x03; xf4; x2c; x66; x35; x39; xa8; xac; x46; x5e; xc4; x21; x58; x20; x00; x56; x50; x13; x20; x47; xc3; x96; x35; x73; xdc; x20; x8c; x7e; xa4; xa2; x41; x21; xba; x4f; xd1; x0c; xce; x99; x2c; xf0; x6c; x9f; x7a; x2b; x11; x94; x20; x01; x01; x02; x03; x26; xa1; x65; x61; x70; x70; x69; x64; xf5] [x00; x00; x00; x00; x00; x00; x00; x00; x00; x00; x00; x00; x00; x00; x00; x00; x00; x00; x00; x00; x00; x00; x00; x00; x23; x73; xcb; xfd; x9d; xc3; x44; x11] None |}; aa_challenge := (blit "challenge"); aa_origin := OneOrigin (lit "https://example.com"); aa_token_binding := (Some {| etb_status := TB_PRESENT; etb_id := (Some (lit "token-binding-id")) |}); aa_require_uv := false; aa_extensions := None |})));
    (raises [TokenBindingError]) (out_result (run (constant_registrar (Ok (Some {| cdt_key := (EC2Key {| kb_kty := (FValue, KT_EC2); kb_kid := None; kb_alg := (Some (FValue, ES256)); kb_key_ops := None; kb_base_IV := None |} [x00; x56; x50; x13; x20; x47; xc3; x96; x35; x73; xdc; x20; x8c; x7e; xa4; xa2; x41; x21; xba; x4f; xd1; x0c; xce; x99; x2c; xf0; x6c; x9f; x7a; x2b; x11; x94] [x00; x05; x99; x06; x4c; x0e; x29; xce; x80; xd6; xb8; x12; x91; x31; xe9; x22; x02; x8b; x0a; x4e; x8d; x03; xf4; x2c; x66; x35; x39; xa8; xac; x46; x5e; xc4] (FValue, P_256)); cdt_sign_count := None; cdt_user := {| us_name := (lit "user"); us_icon := None; us_id := (blit "user-id"); us_display_name := (lit "username") |}; cdt_rp := None |})) (Ok None) (Ok None)) tt (handle_credential_assertion ex_world {| aa_rp := (Some {| rp_name := (lit "example.com"); rp_icon := None; rp_id := (lit "example.com") |}); aa_user := (Some {| us_name := (lit "user"); us_icon := None; us_id := (blit "user-id"); us_display_name := (lit "username") |}); aa_allow := None; aa_ignore_clone := false; aa_credential := {| cr_id := (lit "Y3JlZGVudGlhbC1pZA=="); cr_type := (lit "credential-type"); cr_raw_id := (blit "credential-id"); cr_response := AssertionResponse (blit "{""type"": ""webauthn.get"", ""challenge"": ""Y2hhbGxlbmdl"", ""origin"": ""https://example.com"", ""tokenBinding"": {""status"": ""present"", ""id"": ""token-binding-id-mismatch""}}") [x00; x00; x00; x00; x00; x00; x00; x00; x00; x00; x00; x00; x00; x00; x00; x00; x00; x00; x00; x00; x00; x00; x00; x00; xee; xfb; xec; xcb; xa4; x7d; xc4; x6b; xc1; x00; x00; x00; x00; x7a; x7a; x7a; x7a; x7a; x7a; x7a; x7a; x7a; x7a; x7a; x7a; x7a; x7a; x7a; x7a; x00; x0d; x63; x72; x65; x64; x65; x6e; x74; x69; x61; x6c; x2d; x69; x64; xa5; x22; x58; x20; x00; x05; x99; x06; x4c; x0e; x29; xce; x80; xd6; xb8; x12; x91; x31; xe9; x22; x02; x8b; x0a; x4e; x8d; x03; xf4; x2c; x66; x35; x39; xa8; xac; x46; x5e; xc4; x21; x58; x20; x00; x56; x50; x13; x20; x47; xc3; x96; x35; x73; xdc; x20; x8c; x7e; xa4; xa2; x41; x21; xba; x4f; xd1; x0c; xce; x99; x2c; xf0; x6c; x9f; x7a; x2b; x11; x94; x20; x01; x01; x02; x03; x26; xa1; x65; x61; x70; x70; x69; x64; xf5] [x00; x00; x00; x00; x00; x00; x00; x00; x00; x00; x00; x00; x00; x00; x00; x00; x00; x00; x00; x00; x00; x00; x00; x00; x23; x73; xcb; xfd; x9d; xc3; x44; x11] None |}; aa_challenge := (blit "challenge"); aa_origin := OneOrigin (lit "https://example.com"); aa_token_binding := None; aa_require_uv := false; aa_extensions := None |})));
    (raises [RPIDError]) (out_result (run (constant_registrar (Ok (Some {| cdt_key := (EC2Key {| kb_kty := (FValue, KT_EC2); kb_kid := None; kb_alg := (Some (FValue, ES256)); kb_key_ops := None; kb_base_IV := None |} [x00; x56; x50; x13; x20; x47; xc3; x96; x35; x73; xdc; x20; x8c; x7e; xa4; xa2; x41; x21; xba; x4f; xd1; x0c; xce; x99; x2c; xf0; x6c; x9f; x7a; x2b; x11; x94] [x00; x05; x99; x06; x4c; x0e; x29; xce; x80; xd6; xb8; x12; x91; x31; xe9; x22; x02; x8b; x0a; x4e; x8d; x03; xf4; x2c; x66; x35; x39; xa8; xac; x46; x5e; xc4] (FValue, P_256)); cdt_sign_count := None; cdt_user := {| us_name := (lit "user"); us_icon := None; us_id := (blit "user-id"); us_display_name := (lit "username") |}; cdt_rp := (Some {| rp_name := (lit "example.com"); rp_icon := None; rp_id := (lit "example.com") |}) |})) (Ok None) (Ok None)) tt (handle_credential_assertion ex_world {| aa_rp := (Some {| rp_name := (lit "example.com"); rp_icon := None; rp_id := (lit "mismatch.example.com") |}); aa_user := (Some {| us_name := (lit "user"); us_icon := None; us_id := (blit "user-id"); us_display_name := (lit "username") |}); aa_allow := None; aa_ignore_clone := false; aa_credential := {| cr_id := (lit "Y3JlZGVudGlhbC1pZA=="); cr_type := (lit "credential-type"); cr_raw_id := (blit "credential-id"); cr_response := AssertionResponse (blit "{""type"": ""webauthn.get"", ""challenge"": ""Y2hhbGxlbmdl"", ""origin"": ""https://example.com"", ""tokenBinding"": {""status"": ""present"", ""id"": ""token-binding-id""}}") [x00; x00; x00; x00; x00; x00; x00; x00; x00; x00; x00; x00; x00; x00; x00; x00; x00; x00; x00; x00; x00; x00; x00; x00; xee; xfb; xec; xcb; xa4; x7d; xc4; x6b; xc0; x00; x00; x00; x00; x7a; x7a; x7a; x7a; x7a; x7a; x7a; x7a; x7a; x7a; x7a; x7a; x7a; x7a; x7a; x7a; x00; x0d; x63; x72; x65; x64; x65; x6e; x74; x69; x61; x6c; x2d; x69; x64; xa5; x22; x58; x20; x00; x05; x99; x06; x4c; x0e; x29; xce; x80; xd6; xb8; x12; x91; x31; xe9; x22; x02; x8b; x0a; x4e; x8d; x03; xf4; x2c; x66; x35; x39; xa8; xac; x46; x5e; xc4; x21; x58; x20; x00; x56; x50; x13; x20; x47; xc3; x96; x35; x73; xdc; x20; x8c; x7e; xa4; xa2; x41; x21; xba; x4f; xd1; x0c; xce; x99; x2c; xf0; x6c; x9f; x7a; x2b; x11; x94; x20; x01; x01; x02; x03; x26; xa1; x65; x61; x70; x70; x69; x64; xf5] [x00; x00; x00; x00; x00; x00; x00; x00; x00; x00; x00; x00; x00; x00; x00; x00; x00; x00; x00; x00; x00; x00; x00; x00; x12; xce; x79; xa5; xc0; x82; x8a; x0c] None |}; aa_challenge := (blit "challenge"); aa_origin := OneOrigin (lit "https://example.com"); aa_token_binding := (Some {| etb_status := TB_PRESENT; etb_id := (Some (lit "token-binding-id")) |}); aa_require_uv := false; aa_extensions := None |})));
    (raises [UserPresenceError]) (out_result (run (constant_registrar (Ok (Some {| cdt_key := (EC2Key {| kb_kty := (FValue, KT_EC2); kb_kid := None; kb_alg := (Some (FValue, ES256)); kb_key_ops := None; kb_base_IV := None |} [x00; x56; x50; x13; x20; x47; xc3; x96; x35; x73; xdc; x20; x8c; x7e; xa4; xa2; x41; x21; xba; x4f; xd1; x0c; xce; x99; x2c; xf0; x6c; x9f; x7a; x2b; x11; x94] [x00; x05; x99; x06; x4c; x0e; x29; xce; x80; xd6; xb8; x12; x91; x31; xe9; x22; x02; x8b; x0a; x4e; x8d; x03; xf4; x2c; x66; x35; x39; xa8; xac; x46; x5e; xc4] (FValue, P_256)); cdt_sign_count := None; cdt_user := {| us_name := (lit "user"); us_icon := None; us_id := (blit "user-id"); us_display_name := (lit "username") |}; cdt_rp := None |})) (Ok None) (Ok None)) tt (handle_credential_assertion ex_world {| aa_rp := (Some {| rp_name := (lit "example.com"); rp_icon := None; rp_id := (lit "example.com") |}); aa_user := (Some {| us_name := (lit "user"); us_icon := None; us_id := (blit "user-id"); us_display_name := (lit "username") |}); aa_allow := None; aa_ignore_clone := false; aa_credential := {| cr_id := (lit "Y3JlZGVudGlhbC1pZA=="); cr_type := (lit "credential-type"); cr_raw_id := (blit "credential-id"); cr_response := AssertionResponse (blit "{""type"": ""webauthn.get"", ""challenge"": ""Y2hhbGxlbmdl"", ""origin"": ""https://example.com"", ""tokenBinding"": {""status"": ""present"", ""id"": ""token-binding-id""}}") [x00; x00; x00; x00; x00; x00; x00; x00; x00; x00; x00; x00; x00; x00; x00; x00; x00; x00; x00; x00; x00; x00; x00; x00; xee; xfb; xec; xcb; xa4; x7d; xc4; x6b; xc0; x00; x00; x00; x00; x7a; x7a; x7a; x7a; x7a; x7a; x7a; x7a; x7a; x7a; x7a; x7a; x7a; x7a; x7a; x7a; x00; x0d; x63; x72; x65; x64; x65; x6e; x74; x69; x61; x6c; x2d; x69; x64; xa5; x22; x58; x20; x00; x05; x99; x06; x4c; x0e; x29; xce; x80; xd6; xb8; x12; x91; x31; xe9; x22; x02; x8b; x0a; x4e; x8d; x03; xf4; x2c; x66; x35; x39; xa8; xac; x46; x5e; xc4; x21; x58; x20; x00; x56; x50; x13; x20; x47; xc3; x96; x35; x73; xdc; x20; x8c; x7e; xa4; xa2; x41; x21; xba; x4f; xd1; x0c; xce; x99; x2c; xf0; x6c; x9f; x7a; x2b; x11; x94; x20; x01; x01; x02; x03; x26; xa1; x65; x61; x70; x70; x69; x64; xf5] [x00; x00; x00; x00; x00; x00; x00; x00; x00; x00; x00; x00; x00; x00; x00; x00; x00; x00; x00; x00; x00; x00; x00; x00; x12; xce; x79; xa5; xc0; x82; x8a; x0c] None |}; aa_challenge := (blit "challenge"); aa_origin := OneOrigin (lit "https://example.com"); aa_token_binding := (Some {| etb_status := TB_PRESENT; etb_id := (Some (lit "token-binding-id")) |}); aa_require_uv := false; aa_extensions := None |})));
    (raises [UserVerificationError]) (out_result (run (constant_registrar (Ok (Some {| cdt_key := (EC2Key {| kb_kty := (FValue, KT_EC2); kb_kid := None; kb_alg := (Some (FValue, ES256)); kb_key_ops := None; kb_base_IV := None |} [x00; x56; x50; x13; x20; x47; xc3; x96; x35; x73; xdc; x20; x8c; x7e; xa4; xa2; x41; x21; xba; x4f; xd1; x0c; xce; x99; x2c; xf0; x6c; x9f; x7a; x2b; x11; x94] [x00; x05; x99; x06; x4c; x0e; x29; xce; x80; xd6; xb8; x12; x91; x31; xe9; x22; x02; x8b; x0a; x4e; x8d; x03; xf4; x2c; x66; x35; x39; xa8; xac; x46; x5e; xc4] (FValue, P_256)); cdt_sign_count := None; cdt_user := {| us_name := (lit "user"); us_icon := None; us_id := (blit "user-id"); us_display_name := (lit "username") |}; cdt_rp := None |})) (Ok None) (Ok None)) tt (handle_credential_assertion ex_world {| aa_rp := (Some {| rp_name := (lit "example.com"); rp_icon := None; rp_id := (lit "example.com") |}); aa_user := (Some {| us_name := (lit "user"); us_icon := None; us_id := (blit "user-id"); us_display_name := (lit "username") |}); aa_allow := None; aa_ignore_clone := false; aa_credential := {| cr_id := (lit "Y3JlZGVudGlhbC1pZA=="); cr_type := (lit "credential-type"); cr_raw_id := (blit "credential-id"); cr_response := AssertionResponse (blit "{""type"": ""webauthn.get"", ""challenge"": ""Y2hhbGxlbmdl"", ""origin"": ""https://example.com"", ""tokenBinding"": {""status"": ""present"", ""id"": ""token-binding-id""}}") [x00; x00; x00; x00; x00; x00; x00; x00; x00; x00; x00; x00; x00; x00; x00; x00; x00; x00; x00; x00; x00; x00; x00; x00; xee; xfb; xec; xcb; xa4; x7d; xc4; x6b; xc1; x00; x00; x00; x00; x7a; x7a; x7a; x7a; x7a; x7a; x7a; x7a; x7a; x7a; x7a; x7a; x7a; x7a; x7a; x7a; x00; x0d; x63; x72; x65; x64; x65; x6e; x74; x69; x61; x6c; x2d; x69; x64; xa5; x22; x58; x20; x00; x05; x99; x06; x4c; x0e; x29; xce; x80; xd6; xb8; x12; x91; x31; xe9; x22; x02; x8b; x0a; x4e; x8d; x03; xf4; x2c; x66; x35; x39; xa8; xac; x46; x5e; xc4; x21; x58; x20; x00; x56; x50; x13; x20; x47; xc3; x96; x35; x73; xdc; x20; x8c; x7e; xa4; xa2; x41; x21; xba; x4f; xd1; x0c; xce; x99; x2c; xf0; x6c; x9f; x7a; x2b; x11; x94; x20; x01; x01; x02; x03; x26; xa1; x65; x61; x70; x70; x69; x64; xf5] [x00; x00; x00; x00; x00; x00; x00; x00; x00; x00; x00; x00; x00; x00; x00; x00; x00; x00; x00; x00; x00; x00; x00; x00; x85; xe7; x2e; xc9; x55; x57; x22; x0d] None |}; aa_challenge := (blit "challenge"); aa_origin := OneOrigin (lit "https://example.com"); aa_token_binding := (Some {| etb_status := TB_PRESENT; etb_id := (Some (lit "token-binding-id")) |}); aa_require_uv := true; aa_extensions := None |})));
    (raises [ExtensionError]) (out_result (run (constant_registrar (Ok (Some {| cdt_key := (EC2Key {| kb_kty := (FValue, KT_EC2); kb_kid := None; kb_alg := (Some (FValue, ES256)); kb_key_ops := None; kb_base_IV := None |} [x00; x56; x50; x13; x20; x47; xc3; x96; x35; x73; xdc; x20; x8c; x7e; xa4; xa2; x41; x21; xba; x4f; xd1; x0c; xce; x99; x2c; xf0; x6c; x9f; x7a; x2b; x11; x94] [x00; x05; x99; x06; x4c; x0e; x29; xce; x80; xd6; xb8; x12; x91; x31; xe9; x22; x02; x8b; x0a; x4e; x8d; x03; xf4; x2c; x66; x35; x39; xa8; xac; x46; x5e; xc4] (FValue, P_256)); cdt_sign_count := None; cdt_user := {| us_name := (lit "user"); us_icon := None; us_id := (blit "user-id"); us_display_name := (lit "username") |}; cdt_rp := None |})) (Ok None) (Ok None)) tt (handle_credential_assertion ex_world {| aa_rp := (Some {| rp_name := (lit "example.com"); rp_icon := None; rp_id := (lit "example.com") |}); aa_user := (Some {| us_name := (lit "user"); us_icon := None; us_id := (blit "user-id"); us_display_name := (lit "username") |}); aa_allow := None; aa_ignore_clone := false; aa_credential := {| cr_id := (lit "Y3JlZGVudGlhbC1pZA=="); cr_type := (lit "credential-type"); cr_raw_id := (blit "credential-id"); cr_response := AssertionResponse (blit "{""type"": ""webauthn.get"", ""challenge"": ""Y2hhbGxlbmdl"", ""origin"": ""https://example.com"", ""tokenBinding"": {""status"": ""present"", ""id"": ""token-binding-id""}}") [x00; x00; x00; x00; x00; x00; x00; x00; x00; x00; x00; x00; x00; x00; x00; x00; x00; x00; x00; x00; x00; x00; x00; x00; xee; xfb; xec; xcb; xa4; x7d; xc4; x6b; xc1; x00; x00; x00; x00; x7a; x7a; x7a; x7a; x7a; x7a; x7a; x7a; x7a; x7a; x7a; x7a; x7a; x7a; x7a; x7a; x00; x0d; x63; x72; x65; x64; x65; x6e; x74; x69; x61; x6c; x2d; x69; x64; xa5; x22; x58; x20; x00; x05; x99; x06; x4c; x0e; x29; xce; x80; xd6; xb8; x12; x91; x31; xe9; x22; x02; x8b; x0a; x4e; x8d; x03; xf4; x2c; x66; x35; x39; xa8; xac; x46; x5e; xc4; x21; x58; x20; x00; x56; x50; x13; x20; x47; xc3; x96; x35; x73; xdc; x20; x8c; x7e; xa4; xa2; x41; x21; xba; x4f; xd1; x0c; xce; x99; x2c; xf0; x6c; x9f; x7a; x2b; x11; x94; x20; x01; x01; x02; x03; x26; xa1; x65; x61; x70; x70; x69; x64; xf5] [x00; x00; x00; x00; x00; x00; x00; x00; x00; x00; x00; x00; x00; x00; x00; x00; x00; x00; x00; x00; x00; x00; x00; x00; x85; xe7; x2e; xc9; x55; x57; x22; x0d] None |}; aa_challenge := (blit "challenge"); aa_origin := OneOrigin (lit "https://example.com"); aa_token_binding := (Some {| etb_status := TB_PRESENT; etb_id := (Some (lit "token-binding-id")) |}); aa_require_uv := false; aa_extensions := (Some [TX_AUTH_SIMPLE]) |})));
    (raises [SignatureCountError]) (out_result (run (constant_registrar (Ok (Some {| cdt_key := (EC2Key {| kb_kty := (FValue, KT_EC2); kb_kid := None; kb_alg := (Some (FValue, ES256)); kb_key_ops := None; kb_base_IV := None |} [x00; x56; x50; x13; x20; x47; xc3; x96; x35; x73; xdc; x20; x8c; x7e; xa4; xa2; x41; x21; xba; x4f; xd1; x0c; xce; x99; x2c; xf0; x6c; x9f; x7a; x2b; x11; x94] [x00; x05; x99; x06; x4c; x0e; x29; xce; x80; xd6; xb8; x12; x91; x31; xe9; x22; x02; x8b; x0a; x4e; x8d; x03; xf4; x2c; x66; x35; x39; xa8; xac; x46; x5e; xc4] (FValue, P_256)); cdt_sign_count := (Some 10%Z); cdt_user := {| us_name := (lit "user"); us_icon := None; us_id := (blit "user-id"); us_display_name := (lit "username") |}; cdt_rp := None |})) (Ok None) (Ok None)) tt (handle_credential_assertion ex_world {| aa_rp := (Some {| rp_name := (lit "example.com"); rp_icon := None; rp_id := (lit "example.com") |}); aa_user := (Some {| us_name := (lit "user"); us_icon := None; us_id := (blit "user-id"); us_display_name := (lit "username") |}); aa_allow := None; aa_ignore_clone := false; aa_credential := {| cr_id := (lit "Y3JlZGVudGlhbC1pZA=="); cr_type := (lit "credential-type"); cr_raw_id := (blit "credential-id"); cr_response := AssertionResponse (blit "{""type"": ""webauthn.get"", ""challenge"": ""Y2hhbGxlbmdl"", ""origin"": ""https://example.com"", ""tokenBinding"": {""status"": ""present"", ""id"": ""token-binding-id""}}") [x00; x00; x00; x00; x00; x00; x00; x00; x00; x00; x00; x00; x00; x00; x00; x00; x00; x00; x00; x00; x00; x00; x00; x00; xee; xfb; xec; xcb; xa4; x7d; xc4; x6b; xc1; x00; x00; x00; x00; x7a; x7a; x7a; x7a; x7a; x7a; x7a; x7a; x7a; x7a; x7a; x7a; x7a; x7a; x7a; x7a; x00; x0d; x63; x72; x65; x64; x65; x6e; x74; x69; x61; x6c; x2d; x69; x64; xa5; x22; x58; x20; x00; x05; x99; x06; x4c; x0e; x29; xce; x80; xd6; xb8; x12; x91; x31; xe9; x22; x02; x8b; x0a; x4e; x8d; x03; xf4; x2c; x66; x35; x39; xa8; xac; x46; x5e; xc4; x21; x58; x20; x00; x56; x50; x13; x20; x47; xc3; x96; x35; x73; xdc; x20; x8c; x7e; xa4; xa2; x41; x21; xba; x4f; xd1; x0c; xce; x99; x2c; xf0; x6c; x9f; x7a; x2b; x11; x94; x20; x01; x01; x02; x03; x26; xa1; x65; x61; x70; x70; x69; x64; xf5] [x00; x00; x00; x00; x00; x00; x00; x00; x00; x00; x00; x00; x00; x00; x00; x00; x00; x00; x00; x00; x00; x00; x00; x00; x85; xe7; x2e; xc9; x55; x57; x22; x0d] None |}; aa_challenge := (blit "challenge"); aa_origin := OneOrigin (lit "https://example.com"); aa_token_binding := (Some {| etb_status := TB_PRESENT; etb_id := (Some (lit "token-binding-id")) |}); aa_require_uv := false; aa_extensions := None |})));
    (raises [RegistrationError]) (out_result (run (constant_registrar (Ok (Some {| cdt_key := (EC2Key {| kb_kty := (FValue, KT_EC2); kb_kid := None; kb_alg := (Some (FValue, ES256)); kb_key_ops := None; kb_base_IV := None |} [x00; x56; x50; x13; x20; x47; xc3; x96; x35; x73; xdc; x20; x8c; x7e; xa4; xa2; x41; x21; xba; x4f; xd1; x0c; xce; x99; x2c; xf0; x6c; x9f; x7a; x2b; x11; x94] [x00; x05; x99; x06; x4c; x0e; x29; xce; x80; xd6; xb8; x12; x91; x31; xe9; x22; x02; x8b; x0a; x4e; x8d; x03; xf4; x2c; x66; x35; x39; xa8; xac; x46; x5e; xc4] (FValue, P_256)); cdt_sign_count := None; cdt_user := {| us_name := (lit "user"); us_icon := None; us_id := (blit "user-id"); us_display_name := (lit "username") |}; cdt_rp := None |})) (Raise (Py (EOther 0))) (Ok None)) tt (handle_credential_assertion ex_world {| aa_rp := (Some {| rp_name := (lit "example.com"); rp_icon := None; rp_id := (lit "example.com") |}); aa_user := (Some {| us_name := (lit "user"); us_icon := None; us_id := (blit "user-id"); us_display_name := (lit "username") |}); aa_allow := None; aa_ignore_clone := false; aa_credential := {| cr_id := (lit "Y3JlZGVudGlhbC1pZA=="); cr_type := (lit "credential-type"); cr_raw_id := (blit "credential-id"); cr_response := AssertionResponse (blit "{""type"": ""webauthn.get"", ""challenge"": ""Y2hhbGxlbmdl"", ""origin"": ""https://example.com"", ""tokenBinding"": {""status"": ""present"", ""id"": ""token-binding-id""}}") [x00; x00; x00; x00; x00; x00; x00; x00; x00; x00; x00; x00; x00; x00; x00; x00; x00; x00; x00; x00; x00; x00; x00; x00; xee; xfb; xec; xcb; xa4; x7d; xc4; x6b; xc1; x00; x00; x00; x00; x7a; x7a; x7a; x7a; x7a; x7a; x7a; x7a; x7a; x7a; x7a; x7a; x7a; x7a; x7a; x7a; x00; x0d; x63; x72; x65; x64; x65; x6e; x74; x69; x61; x6c; x2d; x69; x64; xa5; x22; x58; x20; x00; x05; x99; x06; x4c; x0e; x29; xce; x80; xd6; xb8; x12; x91; x31; xe9; x22; x02; x8b; x0a; x4e; x8d; x03; xf4; x2c; x66; x35; x39; xa8; xac; x46; x5e; xc4; x21; x58; x20; x00; x56; x50; x13; x20; x47; xc3; x96; x35; x73; xdc; x20; x8c; x7e; xa4; xa2; x41; x21; xba; x4f; xd1; x0c; xce; x99; x2c; xf0; x6c; x9f; x7a; x2b; x11; x94; x20; x01; x01; x02; x03; x26; xa1; x65; x61; x70; x70; x69; x64; xf5] [x00; x00; x00; x00; x00; x00; x00; x00; x00; x00; x00; x00; x00; x00; x00; x00; x00; x00; x00; x00; x00; x00; x00; x00; x85; xe7; x2e; xc9; x55; x57; x22; x0d] None |}; aa_challenge := (blit "challenge"); aa_origin := OneOrigin (lit "https://example.com"); aa_token_binding := (Some {| etb_status := TB_PRESENT; etb_id := (Some (lit "token-binding-id")) |}); aa_require_uv := false; aa_extensions := None |})));
    (raises [RegistrationError]) (out_result (run (constant_registrar (Ok (Some {| cdt_key := (EC2Key {| kb_kty := (FValue, KT_EC2); kb_kid := None; kb_alg := (Some (FValue, ES256)); kb_key_ops := None; kb_base_IV := None |} [x00; x56; x50; x13; x20; x47; xc3; x96; x35; x73; xdc; x20; x8c; x7e; xa4; xa2; x41; x21; xba; x4f; xd1; x0c; xce; x99; x2c; xf0; x6c; x9f; x7a; x2b; x11; x94] [x00; x05; x99; x06; x4c; x0e; x29; xce; x80; xd6; xb8; x12; x91; x31; xe9; x22; x02; x8b; x0a; x4e; x8d; x03; xf4; x2c; x66; x35; x39; xa8; xac; x46; x5e; xc4] (FValue, P_256)); cdt_sign_count := None; cdt_user := {| us_name := (lit "user"); us_icon := None; us_id := (blit "user-id"); us_display_name := (lit "username") |}; cdt_rp := None |})) (Ok (Some (VStr (lit "Error")))) (Ok None)) tt (handle_credential_assertion ex_world {| aa_rp := (Some {| rp_name := (lit "example.com"); rp_icon := None; rp_id := (lit "example.com") |}); aa_user := (Some {| us_name := (lit "user"); us_icon := None; us_id := (blit "user-id"); us_display_name := (lit "username") |}); aa_allow := None; aa_ignore_clone := false; aa_credential := {| cr_id := (lit "Y3JlZGVudGlhbC1pZA=="); cr_type := (lit "credential-type"); cr_raw_id := (blit "credential-id"); cr_response := AssertionResponse (blit "{""type"": ""webauthn.get"", ""challenge"": ""Y2hhbGxlbmdl"", ""origin"": ""https://example.com"", ""tokenBinding"": {""status"": ""present"", ""id"": ""token-binding-id""}}") [x00; x00; x00; x00; x00; x00; x00; x00; x00; x00; x00; x00; x00; x00; x00; x00; x00; x00; x00; x00; x00; x00; x00; x00; xee; xfb; xec; xcb; xa4; x7d; xc4; x6b; xc1; x00; x00; x00; x00; x7a; x7a; x7a; x7a; x7a; x7a; x7a; x7a; x7a; x7a; x7a; x7a; x7a; x7a; x7a; x7a; x00; x0d; x63; x72; x65; x64; x65; x6e; x74; x69; x61; x6c; x2d; x69; x64; xa5; x22; x58; x20; x00; x05; x99; x06; x4c; x0e; x29; xce; x80; xd6; xb8; x12; x91; x31; xe9; x22; x02; x8b; x0a; x4e; x8d; x03; xf4; x2c; x66; x35; x39; xa8; xac; x46; x5e; xc4; x21; x58; x20; x00; x56; x50; x13; x20; x47; xc3; x96; x35; x73; xdc; x20; x8c; x7e; xa4; xa2; x41; x21; xba; x4f; xd1; x0c; xce; x99; x2c; xf0; x6c; x9f; x7a; x2b; x11; x94; x20; x01; x01; x02; x03; x26; xa1; x65; x61; x70; x70; x69; x64; xf5] [x00; x00; x00; x00; x00; x00; x00; x00; x00; x00; x00; x00; x00; x00; x00; x00; x00; x00; x00; x00; x00; x00; x00; x00; x85; xe7; x2e; xc9; x55; x57; x22; x0d] None |}; aa_challenge := (blit "challenge"); aa_origin := OneOrigin (lit "https://example.com"); aa_token_binding := (Some {| etb_status := TB_PRESENT; etb_id := (Some (lit "token-binding-id")) |}); aa_require_uv := false; aa_extensions := None |}))) ] = true.
Proof. vm_compute. reflexivity. Qed.

(** ** /repo/tests/test_builders.py

    The mocks are read as: any values, which are therefore not None. *)

(** tests/test_builders.py:12-31 *)
Example test_credential_creation_options_builder_success :
  forall rp ps t sel ext att excl u c,
    let l := [set_rp (Some rp); set_pub_key_cred_params (Some ps); set_timeout (Some t);
              set_authenticator_selection (Some sel); set_extensions (Some ext);
              set_attestation (Some att); set_exclude_credentials (Some excl)] in
    forallb (fun last => match chain creation_set creation_default (l ++ last) with
                         | Ok b => returns (creation_build b u c)
                         | Raise _ => false
                         end) ([] :: map (fun call => [call]) l) = true.
Proof. reflexivity. Qed.

(** tests/test_builders.py:34-46 *)
Example test_credential_creation_options_builder_error :
  forall u c,
    raises [BuilderError] (creation_build creation_default u c) = true /\
    creation_set creation_default (set_rp None) = Raise (Py EAssertionError) /\
    creation_set creation_default (set_pub_key_cred_params None) = Raise (Py EAssertionError).
Proof. repeat split. Qed.

(** tests/test_builders.py:49-71 *)
Example test_credential_request_options_builder_success :
  forall m t rp ext uv c allow,
    let l := [rset_mediation (Some m); rset_timeout (Some t); rset_rp_id (Some rp);
              rset_extensions (Some ext); rset_user_verification (Some uv)] in
    forallb (fun calls => match chain request_set request_default calls with
                          | Ok b => returns (request_build b c allow)
                          | Raise _ => false
                          end) (l :: [] :: map (fun call => [call]) l) = true.
Proof. reflexivity. Qed.

(** tests/test_builders.py:74-80 *)
Example test_credential_request_options_builder_error :
  request_set request_default (rset_mediation None) = Raise (Py EAssertionError).
Proof. reflexivity. Qed.

(** ** /repo/tests/test_registrars.py *)

(** tests/test_registrars.py:7-29, for any arguments *)
Example test_credentials_registrar : forall (S : Type) (s : S) c att ty u rp path ad i,
  r_attest (base_registrar S) s c att ty u rp path = (s, raise UnimplementedError) /\
  r_assert (base_registrar S) s c ad u rp = (s, raise UnimplementedError) /\
  r_get (base_registrar S) s i = (s, raise UnimplementedError).
Proof. repeat split. Qed.

