(** * PropsRead: padded base64, form bodies and the keys of decoded maps.

    C45 (what each decoder makes of any text), C82 (atob), C91 and C92. *)
From Coq Require Import List NArith ZArith Bool String.
From Coq Require Import Strings.Byte.
From Verif Require Import Base PyVal B64 Utf8 CodecSpec CborSpec Parsers Form Page ReadSpec ReadFacts FormRead MapKeys
  FormFacts WriteSpec WriteFacts.
Import ListNotations.
Local Open Scope list_scope.

(** C45: every text either has a '=' that ends it, or has none. *)
Theorem C45_closed_or_not :
  forall (val : N -> option N) (s : pystr),
  NeverClosed val s \/ exists a b, s = a ++ 61%N :: b /\ FirstClosed val a.
Proof. exact closed_cases. Qed.
Print Assumptions C45_closed_or_not.

(** C45: a '=' after three symbols of a group, or after two and another '=', ends the text,
    and what follows is ignored as long as it is ASCII. *)
Theorem C45_std_closed :
  forall (a b : pystr),
  FirstClosed std_value a ->
  bytes_from_base64 (a ++ 61%N :: b) =
  if forallb (fun c => c <? 128)%N (a ++ b) then Ok (data_of (read std_value a))
  else Raise (Lib DecodingError).
Proof. exact c45_std_first. Qed.
Print Assumptions C45_std_closed.

Theorem C45_url_closed :
  forall (a b : pystr),
  FirstClosed symbol_value a ->
  url_base64_decode (a ++ 61%N :: b) =
  if forallb (fun c => c <? 128)%N (a ++ b) then Ok (data_of (read symbol_value a))
  else Raise (Py EValueError).
Proof. exact c45_url_first. Qed.
Print Assumptions C45_url_closed.

(** C45: without such a '=', all '=' are ignored. *)
Theorem C45_std_never_closed :
  forall (s : pystr),
  NeverClosed std_value s ->
  bytes_from_base64 s =
  if (forallb (fun c => c <? 128)%N s && (List.length (read std_value s) mod 4 =? 0)%nat)%bool
  then Ok (data_of (read std_value s)) else Raise (Lib DecodingError).
Proof. exact c45_std_never. Qed.
Print Assumptions C45_std_never_closed.

Theorem C45_url_never_closed :
  forall (s : pystr),
  NeverClosed symbol_value s ->
  url_base64_decode s =
  if forallb (fun c => c <? 128)%N s then
    if (List.length (read symbol_value s) mod 4 =? 1)%nat then Raise (Py EBinasciiError)
    else Ok (data_of (read symbol_value s))
  else Raise (Py EValueError).
Proof. exact c45_url_never. Qed.
Print Assumptions C45_url_never_closed.

Example hyp_closed3 : FirstClosed std_value (lit "AQI"). Proof. exact ex_first3. Qed.
Example hyp_closed2 : FirstClosed symbol_value (lit "AQ=*"). Proof. exact ex_first2. Qed.
Example hyp_never : NeverClosed std_value (lit "=AQ=I") /\ ~ NeverClosed std_value (lit "AQI=").
Proof. exact ex_never. Qed.

(** C82: the base64 decoder of the page, exactly. *)
Theorem C82_atob_exact :
  forall (s : jstring) (b : bytes), atob s = Some b <-> Forgiving s b.
Proof. exact c91_atob. Qed.
Print Assumptions C82_atob_exact.

Example hyp_forgiving : Forgiving (lit " A Q I = ") [x01; x02] /\ ~ (exists b, Forgiving (lit "AQ=") b).
Proof. exact ex_forgiving. Qed.

(** C82: the form bodies and the JSON texts of the page, character by character. *)
Theorem C82_form_written :
  forall (ps : list (pystr * pystr)), Forall (fun p => Scalars (fst p) /\ Scalars (snd p)) ps ->
  forall (body : list N), form_encode ps = body <-> FormWritten ps body.
Proof. intros ps F body. symmetry. now apply form_written. Qed.
Print Assumptions C82_form_written.
Theorem C82_quoted :
  forall (t s : jstring), Forall (fun u => u < 65536)%N t ->
  (quote_string t = 34%N :: s ++ [34%N] <-> Quoted t s).
Proof.
  intros t s F. rewrite (quoted t s F). unfold quote_string. split; [|now intros ->].
  intro H. injection H as H. now apply app_inv_tail in H.
Qed.
Print Assumptions C82_quoted.
Theorem C82_stringified :
  forall (B : browser) (v : jsval) (t : jstring), Units16 v ->
  (stringify B v = t <-> Stringified (br_text B) v t).
Proof. intros B v t U. now apply stringified. Qed.
Print Assumptions C82_stringified.
Example hyp_form_written :
  FormWritten [(lit "a b", lit "x&y=%~"); ([233%N], [])] (lit "a+b=x%26y%3D%25%7E&%C3%A9=").
Proof. exact ex_form_written. Qed.
Example hyp_quoted : Quoted [97; 34; 9; 1; 55357; 56832; 55357; 233]%N
  ([97; 92; 34; 92; 116]%N ++ lit "\u0001" ++ [55357; 56832]%N ++ lit "\ud83d" ++ [233%N]).
Proof. exact ex_quoted. Qed.
Example hyp_stringified : Stringified (fun _ => lit "1.5")
  (JsObj [(lit "a", JsArr [JsInt (-20); JsUndefined; JsDouble 0x3FF8000000000000; JsDouble 0x7FF0000000000000]);
          (lit "b", JsUndefined); (lit "c", JsObj []); (lit "d", JsBuf [x01]); (lit "e", JsStr [34%N])])
  ([123; 34; 97; 34; 58]%N ++ lit "[-20,null,1.5,null]" ++ [44; 34; 99; 34; 58]%N ++ lit "{}"
    ++ [44; 34; 100; 34; 58]%N ++ lit "{}" ++ [44; 34; 101; 34; 58; 34; 92; 34; 34; 125]%N).
Proof. exact ex_stringified. Qed.

(** C91: the fields of a form body, for any body, also one the page never sends. *)
Theorem C91_form_exact :
  forall (replaced : bytes -> pystr) (body : list N) (fields : list (pystr * pystr)),
  form_decode replaced body = fields <-> FormReads replaced body fields.
Proof. intros replaced body fields. symmetry. apply form_reads. Qed.
Print Assumptions C91_form_exact.

Example hyp_form : FormReads (fun _ => [65533%N]) (lit "a%20b=c+d%2&&%c3%A9=%ff&x")
  [(lit "a b", lit "c d%2"); ([233%N], [65533%N]); (lit "x", [])].
Proof. exact ex_form. Qed.

(** C92: two keys are equal exactly when Python says so. *)
Theorem C92_key_equality :
  forall (a b : pyval), Hashable a -> Hashable b -> (py_eq a b = true <-> KeyEq a b).
Proof. exact key_eq. Qed.
Print Assumptions C92_key_equality.

(** C92: a lookup in a decoded map finds the last entry with an equal key. *)
Theorem C92_lookup :
  forall (k v : pyval) (ps : list (pyval * pyval)),
  Hashable k -> Forall (fun p => Hashable (fst p)) ps ->
  (dict_find k (entries ps) = Some v <-> LastEqual k v ps).
Proof. exact c92_found. Qed.
Print Assumptions C92_lookup.

Theorem C92_absent :
  forall (k : pyval) (ps : list (pyval * pyval)),
  Hashable k -> Forall (fun p => Hashable (fst p)) ps ->
  (dict_find k (entries ps) = None <-> Forall (fun p => ~ KeyEq (fst p) k) ps).
Proof. exact c92_absent. Qed.
Print Assumptions C92_absent.

(** C92: the keys of every map in the input are such values, if what tags make of them is. *)
Theorem C92_decoded_keys :
  forall (tags : bool -> N -> pyval -> wres pyval),
  (forall t v w, tags true t v = WOk w -> Hashable w) ->
  forall (depth : nat) (inside : bool) (ps : list (pyval * pyval)) (items : bytes),
  CborPairs tags depth inside ps items -> Forall (fun p => Hashable (fst p)) ps.
Proof. intros tags T d i ps bs H. exact (proj1 (proj2 (proj2 (keys_hashable tags T)) d i ps bs H)). Qed.
Print Assumptions C92_decoded_keys.

Example hyp_keys :
  KeyEq (VBool true) (VInt 1) /\ KeyEq (VInt 1) (VFloat 4607182418800017408) /\
  ~ KeyEq (VInt 1) (VFloat 4602678819172646912) /\
  KeyEq (VFloat 4602678819172646912) (VFloat 4602678819172646912) /\
  ~ KeyEq (VFloat 9221120237041090560) (VFloat 9221120237041090560) /\
  ~ KeyEq (VStr (lit "1")) (VInt 1) /\
  KeyEq (VTuple [VBool false; VStr (lit "a")]) (VTuple [VFloat 9223372036854775808; VStr (lit "a")]) /\
  KeyEq (VFrozen [(VInt 1, VNone); (VInt 2, VStr [])]) (VFrozen [(VInt 2, VStr []); (VBool true, VNone)]).
Proof. exact ex_keys. Qed.
Example hyp_last_equal :
  LastEqual (VFloat 4607182418800017408) (VInt 9) [(VInt 1, VInt 8); (VBool true, VInt 9); (VInt 2, VInt 7)].
Proof. exact ex_last_equal. Qed.
