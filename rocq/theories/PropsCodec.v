(** * Properties C39-C42, C44-C46: origins, base64, names. *)
From Coq Require Import List NArith ZArith Bool String.
From Coq Require Import Strings.Byte.
From Verif Require Import Base PyVal B64 Url CaseConv CodecSpec Cbor CborFacts Types World
  Parsers Backends Spec CodecFacts Examples.
Import ListNotations.
Local Open Scope list_scope.

(** C39: the strings accepted and the origin they give, exactly. *)
Theorem C39_origin_exact :
  forall (UE : urlenv) (s : pystr) (o : origin),
  parse_origin UE s = Ok o <-> OriginText UE s o.
Proof. exact (@c39_exact). Qed.
Print Assumptions C39_origin_exact.

(** C39 as stated. *)
Theorem C39_origin_sound :
  forall (UE : urlenv) (s : pystr) (o : origin),
  parse_origin UE s = Ok o ->
  (o_scheme o = lit "http" \/ o_scheme o = lit "https") /\
  o_host o <> [] /\ (forall c, In c (lit "/?#") -> ~ In c (o_host o)) /\
  (o_port o <= 65535)%N /\
  AuthorityPort (o_host o) (if str_eqb (o_scheme o) (lit "http") then 80 else 443)%N (o_port o) /\
  (exists sch tail, Cleaned s (sch ++ lit "://" ++ o_host o ++ tail)).
Proof. exact (@c39_sound). Qed.
Print Assumptions C39_origin_sound.

Definition ex_urlenv : urlenv := {| ue_bracket_ok := fun _ => true; ue_nfkc_ok := fun _ => true |}.
Example origin_example :
  parse_origin ex_urlenv (lit "  hTTps://user@[::1]:8443?#") =
  Ok {| o_scheme := lit "https"; o_host := lit "user@[::1]:8443"; o_port := 8443 |}.
Proof. vm_compute. reflexivity. Qed.
Example origin_rejected :
  parse_origin ex_urlenv (lit "https://a/") = Raise (Lib OriginError) /\
  parse_origin ex_urlenv (lit "ftp://a") = Raise (Lib OriginError) /\
  parse_origin ex_urlenv (lit "https://a:99999") = Raise (Py EValueError).
Proof. vm_compute. auto. Qed.

(** C40.  [origin_text] is "scheme://host" or "scheme://host:port". *)
Theorem C40_canonical :
  forall (UE : urlenv) (name : string) (h : pystr) (p : option pystr) (n : N),
  In name ["http"; "https"]%string -> host_name h ->
  match p with
  | None => n = default_port name
  | Some t => decimal t n /\ (n <= 65535)%N
  end ->
  parse_origin UE (origin_text name h p) =
  Ok {| o_scheme := lit name; o_host := authority h p; o_port := n |}.
Proof. exact (@c40). Qed.
Print Assumptions C40_canonical.

Example hyp_canonical :
  host_name (lit "login.example.org") /\ decimal (lit "8443") 8443 /\
  parse_origin ex_urlenv (origin_text "https" (lit "login.example.org") (Some (lit "8443"))) =
  Ok {| o_scheme := lit "https"; o_host := lit "login.example.org:8443"; o_port := 8443 |}.
Proof. exact ex_canonical. Qed.

(** C41 fails for every host: with and without the default port the origins differ. *)
Theorem C41_default_port_refuted :
  forall (UE : urlenv) (name : string) (h : pystr),
  In name ["http"; "https"]%string -> host_name h ->
  exists t o o', decimal t (default_port name) /\
    parse_origin UE (origin_text name h None) = Ok o /\
    parse_origin UE (origin_text name h (Some t)) = Ok o' /\
    o_scheme o = o_scheme o' /\ o_port o = o_port o' /\ o <> o'.
Proof. exact (@c41_refuted). Qed.
Print Assumptions C41_default_port_refuted.

Example hyp_default_port : In "https"%string ["http"; "https"]%string /\ host_name (lit "a.org").
Proof. exact ex_host. Qed.

(** C41 where both origins show the port, or neither does: equal exactly when scheme, host
    and port text are. *)
Theorem C41_same_form_partial :
  forall (UE : urlenv) (name name' : string) (h h' : pystr) (p p' : option pystr) (o o' : origin),
  In name ["http"; "https"]%string -> In name' ["http"; "https"]%string ->
  host_name h -> host_name h' -> PortShown p -> PortShown p' -> (p = None <-> p' = None) ->
  parse_origin UE (origin_text name h p) = Ok o ->
  parse_origin UE (origin_text name' h' p') = Ok o' ->
  (o = o' <-> name = name' /\ h = h' /\ p = p').
Proof. exact (@c41_partial). Qed.
Print Assumptions C41_same_form_partial.

Example hyp_same_form : PortShown (Some (lit "8443")) /\ PortShown None.
Proof. exact ex_port_shown. Qed.

(** C42 is false of every accepted input: with the decoder of Cbor.v any bytes may follow. *)
Theorem C42_trailing_ignored :
  forall (W : World) (tags : tagsem) (depth : nat) (b t : bytes) (r : att_obj * pydict),
  (forall x, w_cbor_load W x = cbor_load_tags tags depth x) ->
  parse_attestation_object W b = Ok r -> parse_attestation_object W (b ++ t) = Ok r.
Proof. exact (@c42_ignored). Qed.
Print Assumptions C42_trailing_ignored.

(** C42 fails. *)
Theorem C42_trailing_refuted :
 exists W b t r, t <> [] /\ parse_attestation_object W b = Ok r /\
  parse_attestation_object W (b ++ t) = Ok r.
Proof. exact (@c42_refuted). Qed.
Print Assumptions C42_trailing_refuted.

(** C42, what does hold: inside the object nothing is skipped.  The authenticator data is
    its fields and nothing else. *)
Theorem C42_fields_consumed_partial :
  forall (W : World) (b : bytes) (o : att_obj) (d : pydict),
  cbor_reads_prefix W -> parse_attestation_object W b = Ok (o, d) ->
  exists adb ad, member "authData" d (VBytes adb) /\ ao_auth_data o = Some ad /\
    AuthLayout W adb ad.
Proof. exact (@c42_partial). Qed.
Print Assumptions C42_fields_consumed_partial.

(** C44: the encoder is RFC 4648 base64url with padding. *)
Theorem C44_url_encoding :
  forall (b : bytes),
  url_base64_encode b = rfc4648 url_alphabet b.
Proof. exact (@c44_rfc). Qed.
Print Assumptions C44_url_encoding.

(** C44: decoding inverts encoding, whatever number of '=' is stripped from the end. *)
Theorem C44_url_round_trip :
  forall (b : bytes) (s : pystr) (k : nat),
  url_base64_encode b = s ++ repeat 61%N k -> url_base64_decode s = Ok b.
Proof. exact (@c44). Qed.
Print Assumptions C44_url_round_trip.

Theorem C44_encoding_injective :
  forall (b b' : bytes),
  url_base64_encode b = url_base64_encode b' -> b = b'.
Proof. exact (@c44_inj). Qed.
Print Assumptions C44_encoding_injective.

(** C44 for the encoder of jsonify and the decoder of the parsers. *)
Theorem C44_std_round_trip :
  forall (b : bytes),
  b2a b = rfc4648 std_alphabet b /\ bytes_from_base64 (b2a b) = Ok b.
Proof. exact (@c44_std). Qed.
Print Assumptions C44_std_round_trip.

Example strip_padding :
  url_base64_encode [xfb; xff; xfe; x01] = lit "-__-AQ" ++ repeat 61%N 2.
Proof. vm_compute. reflexivity. Qed.

(** C45 fails: junk and unused bits are ignored, both alphabets are accepted, and
    base64url symbols vanish from text read as standard base64. *)
Theorem C45_strict_refuted :
 url_base64_decode (lit "AQI") = Ok [x01; x02] /\
  url_base64_decode (lit "A!Q*I") = Ok [x01; x02] /\
  url_base64_decode (lit "AQJ") = Ok [x01; x02] /\
  url_base64_decode (lit "-_") = url_base64_decode (lit "+/") /\
  bytes_from_base64 (url_base64_encode [xfb; xef; xbe]) = Ok [].
Proof. exact (@c45_refuted). Qed.
Print Assumptions C45_strict_refuted.

(** C45 fails for every text: a character outside the alphabets may be inserted anywhere. *)
Theorem C45_junk_ignored :
  forall (s1 s2 : pystr) (c : N),
  (c < 128)%N -> c <> 61%N -> symbol_value c = None ->
  url_base64_decode (s1 ++ c :: s2) = url_base64_decode (s1 ++ s2).
Proof. exact (@c45_junk). Qed.
Print Assumptions C45_junk_ignored.

Example hyp_junk : symbol_value 33 = None. Proof. vm_compute. reflexivity. Qed.

(** C45: what is decoded, exactly, from text without '='. *)
Theorem C45_url_decoding :
  forall (s : pystr),
  ~ In 61%N s ->
  url_base64_decode s =
  if forallb (fun c => c <? 128)%N s then
    if (List.length (symbol_values s) mod 4 =? 1)%nat then Raise (Py EBinasciiError)
    else Ok (octets (List.concat (map sextet_bits (symbol_values s))))
  else Raise (Py EValueError).
Proof. exact (@c45_exact). Qed.
Print Assumptions C45_url_decoding.

(** The same for _bytes_from_base64: only whole groups of four symbols. *)
Theorem C45_std_decoding :
  forall (s : pystr),
  ~ In 61%N s ->
  bytes_from_base64 s =
  let vs := values_in std_alphabet s in
  if (forallb (fun c => c <? 128)%N s && (List.length vs mod 4 =? 0)%nat)%bool
  then Ok (octets (List.concat (map sextet_bits vs)))
  else Raise (Lib DecodingError).
Proof. exact (@c45_std_exact). Qed.
Print Assumptions C45_std_decoding.

Example hyp_exact : ~ In 61%N (lit "A!Q*I"). Proof. cbn. intuition discriminate. Qed.

(** C45 on canonical texts (symbols of one alphabet, no dangling symbol, unused bits
    zero): distinct texts give distinct bytes, and these texts are the encodings. *)
Theorem C45_canonical_partial :
  forall (s s' : pystr),
  CanonicalUrl s -> CanonicalUrl s' ->
  (exists b, url_base64_decode s = Ok b /\ s = rfc4648_unpadded url_alphabet b) /\
  (url_base64_decode s = url_base64_decode s' -> s = s').
Proof. exact (@c45_partial). Qed.
Print Assumptions C45_canonical_partial.

Example hyp_canonical_text : CanonicalUrl (lit "-__-AQ").
Proof. exact (@ex_canonical_text). Qed.

(** C46: words joined by '_' become camel case and back, for any Unicode tables that agree
    with ASCII. *)
Theorem C46_round_trip :
  forall (U : unicode) (w : pystr) (ws : list pystr),
  ascii_ok U -> first_word w -> Forall later_word ws ->
  snake_to_camel U (snake w ws) = camel w ws /\
  camel_to_snake U (camel w ws) = snake w ws.
Proof. exact (@c46). Qed.
Print Assumptions C46_round_trip.

(** C46: no underscore in the output, which is a fixed point. *)
Theorem C46_camel :
  forall (U : unicode) (s : pystr),
  (forall c, c <> 95%N -> ~ In 95%N (u_upper U c)) ->
  ~ In 95%N (snake_to_camel U s) /\
  snake_to_camel U (snake_to_camel U s) = snake_to_camel U s.
Proof. exact (@c46_idem). Qed.
Print Assumptions C46_camel.

(** C46: ExtensionIdentifier.key names the attribute holding the output. *)
Theorem C46_extension_keys :
  forall (U : unicode) (e : ext_id) (x : ext_outputs),
  ascii_ok U ->
  camel_to_snake U (ext_value e) = ext_key e /\
  (has_nonnull_attr (Some x) (ext_key e) = true <-> ExtPresent e x).
Proof. exact (@c46_keys). Qed.
Print Assumptions C46_extension_keys.

Example hyp_names :
  ascii_ok ascii_unicode /\ first_word (lit "pub") /\ Forall later_word [lit "key"; lit "cred"; lit "params"]
  /\ snake (lit "pub") [lit "key"; lit "cred"; lit "params"] = lit "pub_key_cred_params"
  /\ camel (lit "pub") [lit "key"; lit "cred"; lit "params"] = lit "pubKeyCredParams".
Proof. exact ex_names. Qed.
Example upper_no_underscore : forall c, c <> 95%N -> ~ In 95%N (u_upper ascii_unicode c).
Proof. exact ex_upper. Qed.
