(** * AppExamples: concrete requests to the example application. *)
From Coq Require Import List NArith ZArith Bool String.
From Coq Require Import Strings.Byte.
From Verif Require Import Base PyVal B64 Utf8 Url CaseConv Json Cbor Types World Parsers Crypto
  Backends Spec Examples OptionSpec App AppSpec CodecSpec ClientJson.
Import ListNotations.
Local Open Scope list_scope.

(** Decimal digits. *)
Definition text_int (s : pystr) : option N :=
  match s with
  | [] => None
  | _ => fold_left (fun a c => match a with
                               | Some n => if (48 <=? c)%N && (c <=? 57)%N
                                           then Some (n * 10 + (c - 48))%N else None
                               | None => None end) s (Some 0%N)
  end.
Definition ex_env : appenv := {| ap_unicode := ascii_unicode; ap_depth := 900; ap_int := text_int |}.

Definition q : pystr := lit """".
Definition jtext (s : pystr) : pystr := q ++ s ++ q.

(** Client data for a challenge. *)
Definition app_cdj (ceremony : string) (challenge : bytes) : bytes :=
  match utf8_encode (serialise (lit ceremony) (rfc4648_unpadded url_alphabet challenge)
                               (lit "http://localhost:5000")) with
  | Ok b => b | Raise _ => []
  end.
Definition app_ad (flags : byte) (ctr : N) (tail : bytes) : bytes :=
  toy_hash (blit "localhost") ++ [flags] ++ N_to_be 4 ctr ++ tail.
Definition app_attested (id : bytes) : bytes :=
  ex_aaguid ++ N_to_be 2 (N.of_nat (List.length id)) ++ id ++ dumps (VDict ex_key_map).

(** The credential member of the form. *)
Definition reg_text (challenge raw_id : bytes) : pystr :=
  lit "{""id"":""x"",""type"":""public-key"",""rawId"":" ++ jtext (b2a raw_id) ++
  lit ",""response"":{""clientDataJSON"":" ++ jtext (b2a (app_cdj "webauthn.create" challenge)) ++
  lit ",""attestationObject"":" ++
  jtext (b2a (ex_att_obj "none" [] (app_ad x45 0 (app_attested raw_id)))) ++ lit "}}".
Definition auth_text (challenge raw_id : bytes) (ctr : N) : pystr :=
  let cdj := app_cdj "webauthn.get" challenge in
  let adb := app_ad x05 ctr [] in
  lit "{""id"":""x"",""type"":""public-key"",""rawId"":" ++ jtext (b2a raw_id) ++
  lit ",""response"":{""clientDataJSON"":" ++ jtext (b2a cdj) ++
  lit ",""authenticatorData"":" ++ jtext (b2a adb) ++
  lit ",""signature"":" ++ jtext (b2a (sign_with 123456789 adb cdj)) ++ lit "}}".

Definition chance_of (handle challenge : string) (t : Z) : chance :=
  {| ch_handle := blit handle; ch_challenge := blit challenge; ch_clock := t |}.
Definition ask_reg (n h c : string) (t : Z) : chance * request :=
  (chance_of h c t, RegistrationRequest (Some (lit n))).
Definition ask_auth (n c : string) (t : Z) : chance * request :=
  (chance_of "" c t, AuthenticationRequest (Some (lit n))).
Definition do_reg (i n c id : string) (t : Z) : chance * request :=
  (chance_of "" "" t, RegistrationResponse (Some (lit i)) (Some (reg_text (blit c) (blit id))) (Some (lit n))).
Definition do_auth (i n c id : string) (ctr : N) (t : Z) : chance * request :=
  (chance_of "" "" t, AuthenticationResponse (Some (lit i)) (Some (auth_text (blit c) (blit id) ctr)) (Some (lit n))).

(** Alice registers two credentials and logs in with each. *)
Definition session : list (chance * request) :=
  [ask_reg "alice" "handle-a" "challenge-1" 1000; do_reg "1" "alice" "challenge-1" "cred-1" 2000;
   ask_reg "alice" "handle-x" "challenge-2" 3000; do_reg "2" "alice" "challenge-2" "cred-2" 4000;
   ask_reg "bob" "handle-b" "challenge-3" 5000;
   ask_auth "alice" "challenge-4" 6000; do_auth "4" "alice" "challenge-4" "cred-1" 7 7000;
   ask_auth "alice" "challenge-5" 8000; do_auth "5" "alice" "challenge-5" "cred-2" 1 9000;
   do_auth "5" "alice" "challenge-5" "cred-2" 1 9500;
   ask_auth "alice" "challenge-6" 10000; do_auth "6" "alice" "challenge-6" "cred-1" 8 70001].

Definition status (r : reply) : N * string :=
  match r with Options i _ => (i, "options"%string) | Reply c t => (c, t) | ServerError _ => (500%N, ""%string) end.
Example session_replies :
  map status (fst (serve_all ex_world ex_env empty_db session)) =
  [(1%N, "options"); (200%N, "Success"); (2%N, "options"); (200%N, "Success"); (3%N, "options");
   (4%N, "options"); (200%N, "Success"); (5%N, "options"); (200%N, "Success");
   (400%N, "Could not handle credential assertion"); (6%N, "options"); (408%N, "Timeout")]%string.
Proof. vm_compute. reflexivity. Qed.
