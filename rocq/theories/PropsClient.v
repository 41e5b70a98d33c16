(** * Property C38: client data. *)
From Coq Require Import List NArith ZArith Bool String.
From Coq Require Import Strings.Byte.
From Verif Require Import Base PyVal Json JsonSpec Utf8 Types World Parsers Spec FormatSpec
  ClientFacts ClientJson Examples.
Import ListNotations.
Local Open Scope list_scope.
Local Open Scope N_scope.

(** C38: exactly the UTF-8 JSON objects with string members type, challenge and origin (and
    a well-formed token binding, if any) parse, and to these members.  [JText] is the JSON
    grammar: any white space, escapes, order and additional members. *)
Theorem C38_client_data_exact :
  forall (W : World) (E : jsonenv) (cdj : bytes) (c : client_data),
  (forall s, w_json_loads W s = json_loads E s) ->
  (parse_client_data W cdj = Ok c <-> ClientDataText E cdj c).
Proof. exact (@c38_exact). Qed.
Print Assumptions C38_client_data_exact.

(** C38: of several members of one name the last counts. *)
Theorem C38_last_member :
  forall (ps : list (pystr * pyval)) (k : pystr) (v : pyval),
  dict_find (VStr k) (dict_of ps) = Some v <-> LastPair ps k v.
Proof. exact (@c38_last). Qed.
Print Assumptions C38_last_member.

(** C38: for all strings of Unicode scalar values, the serialisation of the client data
    parses back to them. *)
Theorem C38_round_trip :
  forall (W : World) (E : jsonenv) (ty ch org : pystr),
  (forall s, w_json_loads W s = json_loads E s) -> (1 <= je_depth E)%nat ->
  Forall scalar ty -> Forall scalar ch -> Forall scalar org ->
  exists cdj, utf8_encode (serialise ty ch org) = Ok cdj /\
    parse_client_data W cdj
    = Ok {| cd_type := ty; cd_challenge := ch; cd_origin := org; cd_token_binding := None |}.
Proof. exact (@c38_round). Qed.
Print Assumptions C38_round_trip.

(** Escapes, white space, token binding, an additional member and a repeated one. *)
Example client_data_text :
  parse_client_data ex_world (map byte_of_N (lit
    " { ""x"" : [1, -2.5e3, {}, null], ""origin"": ""https:\/\/a.b"", ""type"" :""webauthn.get"",
      ""challenge"":""old"",""tokenBinding"":{""status"":""present"",""id"":""\ud83d\ude00""},""challenge"":""YWJj"" } "))
  = Ok {| cd_type := lit "webauthn.get"; cd_challenge := lit "YWJj"; cd_origin := lit "https://a.b";
          cd_token_binding := Some {| tb_status_ := TB_PRESENT; tb_id := VStr [128512] |} |}.
Proof. vm_compute. reflexivity. Qed.
Example round_trip_hyps :
  (forall s, w_json_loads ex_world s = json_loads ex_json s) /\ (1 <= je_depth ex_json)%nat /\
  Forall scalar [34; 92; 10; 233; 128512] /\
  serialise [34; 92; 10; 233] (lit "c") (lit "o")
  = lit "{""type"":""\""\\\u000a" ++ [233] ++ lit """,""challenge"":""c"",""origin"":""o"",""crossOrigin"":false}".
Proof. exact ex_round_trip. Qed.

(** C38: the exceptions, exactly: ParserError, DecodingError, and two of json.loads that the
    code lets through: ValueError for an integer with more digits than int() takes, and
    RecursionError for nesting beyond the interpreter's limit. *)
Theorem C38_failures :
  forall (W : World) (E : jsonenv) (cdj : bytes) (e : exn),
  (forall s, w_json_loads W s = json_loads E s) ->
  parse_client_data W cdj = Raise e ->
  e = Lib ParserError \/ e = Lib DecodingError \/
  (e = Py EValueError /\ exists m, je_max_digits E = Some m /\ m < N.of_nat (List.length cdj)) \/
  (e = Py ERecursionError /\ (je_depth E < List.length cdj)%nat).
Proof. exact (@c38_fail). Qed.
Print Assumptions C38_failures.

(** C38, errors: data shorter than both limits of the interpreter only raises ParserError or
    DecodingError.  Missing: longer data. *)
Theorem C38_errors_partial :
  forall (W : World) (E : jsonenv) (cdj : bytes) (e : exn),
  (forall s, w_json_loads W s = json_loads E s) ->
  (List.length cdj <= je_depth E)%nat ->
  (forall m, je_max_digits E = Some m -> N.of_nat (List.length cdj) <= m) ->
  parse_client_data W cdj = Raise e -> e = Lib ParserError \/ e = Lib DecodingError.
Proof. exact (@c38_partial). Qed.
Print Assumptions C38_errors_partial.

(** In general: an integer with more digits than allowed escapes as a bare ValueError. *)
Theorem C38_long_integer :
  forall (W : World) (E : jsonenv) (digits : pystr) (m : N),
  (forall s, w_json_loads W s = json_loads E s) ->
  IntPart digits -> je_max_digits E = Some m -> m < N.of_nat (List.length digits) ->
  parse_client_data W (map byte_of_N digits) = Raise (Py EValueError).
Proof. exact (@c38_long). Qed.
Print Assumptions C38_long_integer.

(** In general: nesting beyond the limit escapes as RecursionError. *)
Theorem C38_deep_nesting :
  forall (W : World) (E : jsonenv) (k : nat),
  (forall s, w_json_loads W s = json_loads E s) -> (je_depth E < k)%nat ->
  parse_client_data W (map byte_of_N (repeat 91 k)) = Raise (Py ERecursionError).
Proof. exact (@c38_deep). Qed.
Print Assumptions C38_deep_nesting.

(** C38's claim about errors fails: neither ParserError nor DecodingError. *)
Theorem C38_errors_refuted :
  exists (W : World) (cdj cdj' : bytes),
    parse_client_data W cdj = Raise (Py EValueError) /\
    parse_client_data W cdj' = Raise (Py ERecursionError).
Proof. exact (@c38_refuted). Qed.
Print Assumptions C38_errors_refuted.
