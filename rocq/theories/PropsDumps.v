(** * PropsDumps: C77, the JSON text of the options and of the answers. *)
From Coq Require Import List NArith ZArith Bool String Lia.
From Verif Require Import Base PyVal Json JsonSpec JsonFacts Types World CaseConv Jsonify Builders OptionSpec OptionProps
  App AppSpec AppExamples AppTheorems CodecSpec Dumps DumpsSpec DumpsFirstSpec DumpsFirst DumpsFacts DumpsOptions Examples.
Import ListNotations.
Local Open Scope N_scope.
Local Open Scope list_scope.

(** C77: values of nothing but JSON, whose strings hold no surrogate pair in two pieces, are
    written as a JSON text of themselves, in printable ASCII, and read back unchanged. *)
Theorem C77_text :
  forall (E : jsonenv) (repr : N -> pystr) (v : pyval),
  Carried E repr (je_depth E) v ->
  exists t, json_dumps E repr v = WOk t /\ JsonSpec.JText E t v /\ json_loads E t = WOk v /\
    Forall printable t.
Proof. exact (@carried_text). Qed.
Print Assumptions C77_text.

Example text_example :
  let v := VDict [(VStr (lit "name"), VStr (lit "a""b\" ++ [10; 233; 128512; 127]));
                  (VStr (lit "list"), VList [VInt (-35); VBool true; VNone; VList []; VDict []])] in
  Carried ex_json (fun _ => []) (je_depth ex_json) v /\
  json_dumps ex_json (fun _ => []) v =
    WOk (lit "{""name"": ""a\""b\\\n\u00e9\ud83d\ude00\u007f"", ""list"": [-35, true, null, [], {}]}").
Proof.
  assert (P : forall s, forallb (fun c => (c <=? 0x10FFFF) && negb (high_surrogate c)) s = true -> PlainText s).
  { intros s F. rewrite forallb_forall in F. split.
    - apply Forall_forall. intros c I. apply F, andb_true_iff in I as [I _]. now apply N.leb_le.
    - intros (a & h & l & b & -> & H & _). apply high_iff in H.
      specialize (F h ltac:(apply in_or_app; right; now left)). rewrite H, andb_false_r in F. discriminate. }
  assert (S : forall n s, PlainText s -> Carried ex_json (fun _ => []) n (VStr s)).
  { intros n s [? ?]. now constructor. }
  split; [|vm_compute; reflexivity]. apply (carried_mono _ _ 3); [|vm_compute; lia].
  constructor.
  - intros k w [Q|[Q|[]]]; injection Q as <- <-; eexists; (split; [reflexivity|apply lit_plain]).
  - cbn [map fst]. constructor; [|constructor; [intros []|constructor]].
    intros [Q|[]]. discriminate Q.
  - constructor; [|constructor; [|constructor]]; cbn [snd].
    + apply S, P. vm_compute. reflexivity.
    + constructor. constructor.
      { constructor. intros m Q. injection Q as <-. split; [reflexivity|]. vm_compute. reflexivity. }
      constructor; [constructor|]. constructor; [constructor|].
      constructor; [constructor; constructor|]. constructor; [|constructor].
      constructor; [intros k w []|constructor|constructor].
Qed.

(** Numbers, those without a JSON text of their own included. *)
Example float_example :
  let E := {| je_float := fun s => if str_eqb s (lit "inf") then 0x7FF0000000000000
                                   else if str_eqb s (lit "nan") then 0x7FF8000000000000
                                   else 0x3FF8000000000000;
              je_max_digits := Some 4300; je_depth := 990 |} in
  let repr := fun _ => lit "1.5" in
  let v := VList [VFloat 0x3FF8000000000000; VFloat 0x7FF0000000000000; VFloat 0x7FF8000000000000] in
  Carried E repr 1 v /\ json_dumps E repr v = WOk (lit "[1.5, Infinity, NaN]") /\
  json_loads E (lit "[1.5, Infinity, NaN]") = WOk v.
Proof.
  intros E repr v. split; [|split; vm_compute; reflexivity].
  constructor. constructor; [|constructor; [|constructor; [|constructor]]]; constructor.
  - left. split; [split; [reflexivity|vm_compute; discriminate]|]. split.
    + repeat (constructor; [unfold printable; vm_compute; split; discriminate|]). constructor.
    + apply (jnum_float E [] (lit "1") (lit ".5") []); auto.
      * right. exists 49, []. split; [reflexivity|]. split; [lia|constructor].
      * right. exists (lit "5"). split; [reflexivity|]. split; [discriminate|].
        constructor; [|constructor]. unfold Digit. vm_compute. split; discriminate.
      * left. discriminate.
  - right. left. split; reflexivity.
  - right. right. right. split; [reflexivity|]. split; [discriminate|reflexivity].
Qed.

(** C77: a string of Unicode code points is always written in printable ASCII, and it reads
    back unchanged exactly if it holds no surrogate pair in two pieces. *)
Theorem C77_strings :
  forall (E : jsonenv) (repr : N -> pystr) (s : pystr),
  CodePoints s ->
  exists t, json_dumps E repr (VStr s) = WOk t /\ Forall printable t /\
    (json_loads E t = WOk (VStr s) <-> ~ SplitPair s).
Proof. exact (@c77_strings). Qed.
Print Assumptions C77_strings.

Example split_pair :
  CodePoints [0xD83D; 0xDE00] /\ SplitPair [0xD83D; 0xDE00] /\ ~ SplitPair [0xDE00; 0xD83D] /\
  exists t, json_dumps ex_json (fun _ => []) (VStr [0xD83D; 0xDE00]) = WOk t /\
    json_loads ex_json t = WOk (VStr [128512]).
Proof.
  split; [repeat constructor; discriminate|]. split.
  { exists [], 0xD83D, 0xDE00, []. split; [reflexivity|]. unfold High, Low. lia. }
  split.
  { intros (a & h & l & b & Q & H & L). destruct a as [|x [|y [|z a]]]; cbn in Q; try discriminate.
    injection Q as <- <- _. unfold High in H. lia. }
  exists (lit """\ud83d\ude00"""). split; vm_compute; reflexivity.
Qed.

(** C77: json.dumps fails exactly if some part of the value cannot be written, with the
    exception of one of its defects. *)
Theorem C77_failures :
  forall (E : jsonenv) (repr : N -> pystr) (v : pyval),
  (forall e, json_dumps E repr v = WRaise e -> DumpDefect E (je_depth E) v e) /\
  ((exists t, json_dumps E repr v = WOk t) <-> forall e, ~ DumpDefect E (je_depth E) v e).
Proof. exact (@c77_failures). Qed.
Print Assumptions C77_failures.

Example unwritable :
  let E := {| je_float := fun _ => 0; je_max_digits := Some 4; je_depth := 3 |} in
  json_dumps E (fun _ => []) (VList [VInt 1; VBytes []]) = WRaise ETypeError /\
  json_dumps E (fun _ => []) (VDict [(VTuple [], VInt 1)]) = WRaise ETypeError /\
  json_dumps E (fun _ => []) (VInt (-10000)) = WRaise EValueError /\
  json_dumps E (fun _ => []) (Nat.iter 4 (fun v => VList [v]) VNone) = WRaise ERecursionError /\
  json_dumps E (fun _ => []) (Nat.iter 3 (fun v => VList [v]) (VInt (-9999))) = WOk (lit "[[[-9999]]]").
Proof. vm_compute. repeat split; reflexivity. Qed.

(** C77: the exception, exactly: that of the first defect from left to right. *)
Theorem C77_first_defect :
  forall (E : jsonenv) (repr : N -> pystr) (v : pyval) (e : pyexn),
  json_dumps E repr v = WRaise e <-> DumpStops E (je_depth E) v e.
Proof. exact (@c77_first). Qed.
Print Assumptions C77_first_defect.

Example hyp_first_defect :
  let E := {| je_float := fun _ => 0; je_max_digits := Some 4; je_depth := 3 |} in
  DumpStops E 3 (VList [VNone; VDict [(VInt 1, VInt 10000); (VTuple [], VNone)]; VBytes []]) EValueError /\
  DumpStops E 3 (VDict [(VTuple [], VInt 10000)]) ETypeError.
Proof. intro E. split; apply (c77_first E (fun _ => [])); vm_compute; reflexivity. Qed.

(** C77: options built by the library, converted by jsonify, have a JSON text: it denotes the
    converted options. *)
Theorem C77_creation :
  forall (U : unicode) (depth : nat) (E : jsonenv) (repr : N -> pystr) (b : creation_builder)
  (user : user_entity) (challenge : bytes) (o : creation_options),
  ascii_ok U -> (7 <= depth)%nat -> limits E -> creation_build b user challenge = Ok o ->
  PlainCreation E repr o ->
  exists v t, jsonify U depth true (obj_of_creation o) = Ok v /\ JCreation o v /\
    json_dumps E repr v = WOk t /\ JsonSpec.JText E t v /\ json_loads E t = WOk v /\ Forall printable t.
Proof. exact (@c77_creation). Qed.
Print Assumptions C77_creation.

Theorem C77_request :
  forall (U : unicode) (depth : nat) (E : jsonenv) (repr : N -> pystr) (b : request_builder)
  (challenge : bytes) (allow : option (list descriptor)) (o : request_options),
  ascii_ok U -> (7 <= depth)%nat -> limits E -> request_build b challenge allow = Ok o ->
  PlainRequest E repr o ->
  exists v t, jsonify U depth true (obj_of_request o) = Ok v /\ JRequest o v /\
    json_dumps E repr v = WOk t /\ JsonSpec.JText E t v /\ json_loads E t = WOk v /\ Forall printable t.
Proof. exact (@c77_request). Qed.
Print Assumptions C77_request.

(** C77: the body of the answer to a registration request of the example application is a JSON
    text of the challenge's number and the options. *)
Theorem C77_registration_answer :
  forall (W : World) (E : appenv) (J : jsonenv) (repr : N -> pystr) (l : list (chance * request))
  (c : chance) (n : pystr) (id : N) (v : pyval),
  converts E -> limits J -> PlainText n -> id < 10 ^ 640 ->
  answer W E l (c, RegistrationRequest (Some n)) = Options id v ->
  exists t, options_body J repr "creationOptions" id v = WOk t /\ Forall printable t /\
    let a := VDict [(VStr (lit "challengeID"), VInt (Z.of_N id)); (VStr (lit "creationOptions"), v)] in
    JsonSpec.JText J t a /\ json_loads J t = WOk a.
Proof. exact (@c77_registration). Qed.
Print Assumptions C77_registration_answer.

(** C77: and of the answer to a login request. *)
Theorem C77_login_answer :
  forall (W : World) (E : appenv) (J : jsonenv) (repr : N -> pystr) (l : list (chance * request))
  (c : chance) (n : pystr) (id : N) (v : pyval),
  converts E -> limits J -> id < 10 ^ 640 ->
  answer W E l (c, AuthenticationRequest (Some n)) = Options id v ->
  exists t, options_body J repr "requestOptions" id v = WOk t /\ Forall printable t /\
    let a := VDict [(VStr (lit "challengeID"), VInt (Z.of_N id)); (VStr (lit "requestOptions"), v)] in
    JsonSpec.JText J t a /\ json_loads J t = WOk a.
Proof. exact (@c77_login). Qed.
Print Assumptions C77_login_answer.

Example answer_text :
  limits ex_json /\ PlainText (lit "alice") /\
  exists id v, answer ex_world ex_env (firstn 2 session) (ask_reg "alice" "handle-x" "challenge-2" 3000) = Options id v /\
    id < 10 ^ 640 /\
    options_body ex_json (fun _ => []) "creationOptions" id v = WOk (lit "{""challengeID"": 2, ""creationOptions"": {""publicKey"": {""rp"": {""name"": ""localhost"", ""id"": ""localhost""}, ""user"": {""name"": ""alice"", ""id"": ""aGFuZGxlLWE="", ""displayName"": ""alice""}, ""challenge"": ""Y2hhbGxlbmdlLTI="", ""pubKeyCredParams"": [{""type"": ""public-key"", ""alg"": -7}], ""timeout"": 60000, ""attestation"": ""none""}}}").
Proof.
  split; [split; [intros m Q; injection Q as <-; lia|vm_compute; lia]|]. split; [apply lit_plain|].
  do 2 eexists. split; [vm_compute; reflexivity|]. split; [reflexivity|]. vm_compute. reflexivity.
Qed.
