(** * ClientJson: lemmas behind PropsClient. *)
From Coq Require Import List NArith ZArith Bool Lia ZifyBool ZifyNat ZifyN String.
From Coq Require Import Strings.Byte.
From Coq Require Ascii.
From Verif Require Import Base PyVal BaseFacts Json JsonSpec JsonFacts Utf8 Utf8Facts Utf8Sound
  Types World Parsers Spec FormatSpec ClientFacts RaiseFacts JsonifyFacts OptionFacts Examples.
Import ListNotations.
Local Open Scope list_scope.
Local Open Scope N_scope.
Ltac Zify.zify_post_hook ::= idtac.

(** Client data as WebAuthn 5.10.1 describes it: the UTF-8 form of a JSON object. *)
Definition ClientDataText (E : jsonenv) (cdj : bytes) (c : client_data) : Prop :=
  exists text d, utf8_encode text = Ok cdj /\ JText E text (VDict d) /\
    member "type" d (VStr (cd_type c)) /\ member "challenge" d (VStr (cd_challenge c)) /\
    member "origin" d (VStr (cd_origin c)) /\ TbParsed d (cd_token_binding c).

(** The last pair with a name. *)
Definition LastPair (ps : list (pystr * pyval)) (k : pystr) (v : pyval) : Prop :=
  exists l1 l2, ps = l1 ++ (k, v) :: l2 /\ forall v', ~ In (k, v') l2.

Lemma add_members_keys ps : forall acc, str_keys acc -> str_keys (add_members ps acc).
Proof.
  induction ps as [|[k v] ps IH]; intros acc H; [exact H|]. apply IH. now apply dict_set_keys.
Qed.
Lemma add_members_find ps : forall acc k w, str_keys acc ->
  (dict_find (VStr k) (add_members ps acc) = Some w <->
   LastPair ps k w \/ (dict_find (VStr k) acc = Some w /\ forall v, ~ In (k, v) ps)).
Proof.
  induction ps as [|[k0 v0] ps IH]; intros acc k w SK.
  - cbn. split.
    + intro H. right. split; [exact H|auto].
    + intros [(l1 & l2 & Q & _)|[H _]]; [destruct l1; discriminate|exact H].
  - cbn [add_members fold_left fst snd]. change (fold_left _ ps ?a) with (add_members ps a).
    rewrite IH by now apply dict_set_keys.
    rewrite find_in by now apply dict_set_keys. rewrite find_in by exact SK.
    rewrite dict_set_in by exact SK. split.
    + intros [(l1 & l2 & -> & N)|[[[Q ->]|[Hne Hi0]] N]].
      * left. exists ((k0, v0) :: l1), l2. auto.
      * injection Q as ->. left. exists [], ps. auto.
      * right. split; [exact Hi0|]. intros v [Q|Hi]; [injection Q as -> ->; congruence|now apply (N v)].
    + intros [(l1 & l2 & Q & N)|[Hi0 N]].
      * destruct l1 as [|p l1]; [injection Q as -> -> ->|injection Q as _ ->].
        -- right. split; [|exact N]. left. auto.
        -- left. exists l1, l2. auto.
      * right. split; [|intros v Hi; apply (N v); now right]. right. split; [|exact Hi0].
        intros Q. injection Q as ->. apply (N v0). now left.
Qed.

Lemma c38_exact (W : World) (E : jsonenv) (cdj : bytes) (c : client_data) :
  (forall s, w_json_loads W s = json_loads E s) ->
  (parse_client_data W cdj = Ok c <-> ClientDataText E cdj c).
Proof.
  intro HW. rewrite parse_client_data_ok. unfold ClientParsed, ClientDataText. split.
  - intros (d & text & H1 & H2 & H3). exists text, d. rewrite HW in H2.
    apply json_loads_iff in H2. apply utf8_decode_iff in H1. auto.
  - intros (text & d & H1 & H2 & H3). exists d, text. rewrite HW.
    apply json_loads_iff in H2. apply utf8_decode_iff in H1. auto.
Qed.

Lemma c38_last (ps : list (pystr * pyval)) (k : pystr) (v : pyval) :
  dict_find (VStr k) (dict_of ps) = Some v <-> LastPair ps k v.
Proof.
  change (dict_of ps) with (add_members ps []). rewrite add_members_find by (split; [intros ? ? []|constructor]).
  split; [intros [H|[H _]]; [exact H|discriminate]|auto].
Qed.

(** ** Serialisation *)
Definition hex_char (n : N) : N := if n <? 10 then 48 + n else 87 + n.
(** A string between quotes: quote, backslash and control characters escaped, the rest as is. *)
Definition quote_char (c : N) : pystr :=
  if c =? 34 then [92; 34] else if c =? 92 then [92; 92]
  else if c <? 32 then [92; 117; 48; 48; hex_char (c / 16); hex_char (c mod 16)] else [c].
Definition quote (s : pystr) : pystr := flat_map quote_char s.

Definition serialise (ty ch org : pystr) : pystr :=
  lit "{""type"":""" ++ quote ty ++ lit """,""challenge"":""" ++ quote ch ++
  lit """,""origin"":""" ++ quote org ++ lit """,""crossOrigin"":false}".

Definition scalar (c : N) : Prop := c < 55296 \/ 57343 < c <= 1114111.

Lemma hex_char_digit n : n < 16 -> HexDigit (hex_char n) n.
Proof. unfold hex_char, HexDigit. intro H. destruct (N.ltb_spec n 10); lia. Qed.

Lemma quote_ok s : JString (quote s) s.
Proof.
  induction s as [|c s IH]; [constructor|]. cbn [quote flat_map]. fold (quote s). unfold quote_char.
  destruct (N.eqb_spec c 34) as [->|N1]; [apply jstr_escape; [constructor|exact IH]|].
  destruct (N.eqb_spec c 92) as [->|N2]; [apply jstr_escape; [constructor|exact IH]|].
  destruct (N.ltb_spec c 32) as [L|L]; [|apply jstr_plain; auto].
  cbn [app]. assert (c / 16 < 16) by (apply N.div_lt_upper_bound; lia).
  assert (c mod 16 < 16) by (apply N.mod_upper_bound; lia).
  apply jstr_unicode; [|unfold High; lia|exact IH].
  exists 0, 0, (c / 16), (c mod 16).
  split; [unfold HexDigit; lia|]. split; [unfold HexDigit; lia|].
  split; [now apply hex_char_digit|]. split; [now apply hex_char_digit|].
  rewrite (N.div_mod c 16) at 1; lia.
Qed.
Lemma quote_scalar s : Forall scalar s -> Forall scalar (quote s).
Proof.
  induction 1 as [|c s Hc _ IH]; [constructor|]. cbn [quote flat_map]. fold (quote s).
  apply Forall_app. split; [|exact IH]. unfold quote_char.
  destruct (c =? 34); [repeat constructor|]. destruct (c =? 92); [repeat constructor|].
  destruct (N.ltb_spec c 32) as [L|L]; [|constructor; [exact Hc|constructor]].
  assert (c / 16 < 16) by (apply N.div_lt_upper_bound; lia).
  assert (c mod 16 < 16) by (apply N.mod_upper_bound; lia).
  assert (HX : forall n, n < 16 -> scalar (hex_char n)).
  { intros n Hn. unfold scalar, hex_char. destruct (N.ltb_spec n 10); lia. }
  assert (forall n, n < 128 -> scalar n) by (unfold scalar; lia).
  repeat (apply Forall_cons; [auto; solve [apply H1; lia]|]). constructor.
Qed.
Lemma lit_scalar s : Forall scalar (lit s).
Proof.
  unfold lit. induction s as [|a s IH]; cbn; [constructor|]. constructor; [|exact IH].
  left. pose proof (Ascii.N_ascii_bounded a). lia.
Qed.
Lemma serialise_scalar ty ch org : Forall scalar ty -> Forall scalar ch -> Forall scalar org ->
  Forall scalar (serialise ty ch org).
Proof.
  intros. unfold serialise. repeat (apply Forall_app; split); try apply lit_scalar; now apply quote_scalar.
Qed.

Lemma serialise_text E ty ch org : (1 <= je_depth E)%nat ->
  JText E (serialise ty ch org) (VDict (dict_of [(lit "type", VStr ty); (lit "challenge", VStr ch);
    (lit "origin", VStr org); (lit "crossOrigin", VBool false)])).
Proof.
  intro D. destruct (je_depth E) as [|n] eqn:DE; [lia|]. exists [], (serialise ty ch org), [].
  rewrite app_nil_r, DE. split; [reflexivity|]. split; [constructor|]. split; [constructor|].
  assert (Wn : WS []) by constructor.
  assert (K : forall s, JString (lit s) (lit s) -> True) by auto. clear K.
  pose proof (jval_string E n (quote ty) ty (quote_ok ty)) as V1.
  pose proof (jval_string E n (quote ch) ch (quote_ok ch)) as V2.
  pose proof (jval_string E n (quote org) org (quote_ok org)) as V3.
  pose proof (jval_const E n _ _ (jconst_false E)) as V4.
  assert (K1 : JString (lit "type") (lit "type")) by (repeat (apply jstr_plain; [vm_compute; discriminate|discriminate|discriminate|]); constructor).
  assert (K2 : JString (lit "challenge") (lit "challenge")) by (repeat (apply jstr_plain; [vm_compute; discriminate|discriminate|discriminate|]); constructor).
  assert (K3 : JString (lit "origin") (lit "origin")) by (repeat (apply jstr_plain; [vm_compute; discriminate|discriminate|discriminate|]); constructor).
  assert (K4 : JString (lit "crossOrigin") (lit "crossOrigin")) by (repeat (apply jstr_plain; [vm_compute; discriminate|discriminate|discriminate|]); constructor).
  pose proof (jmembers_one E n _ _ [] [] _ _ [] K4 Wn Wn V4 Wn) as M4.
  pose proof (jmembers_more E n _ _ [] [] _ _ [] [] _ _ K3 Wn Wn V3 Wn Wn M4) as M3.
  pose proof (jmembers_more E n _ _ [] [] _ _ [] [] _ _ K2 Wn Wn V2 Wn Wn M3) as M2.
  pose proof (jmembers_more E n _ _ [] [] _ _ [] [] _ _ K1 Wn Wn V1 Wn Wn M2) as M1.
  pose proof (jval_object E n [] _ _ Wn M1) as V. 
  match type of V with JValue _ _ ?t _ => replace (serialise ty ch org) with t; [exact V|] end.
  unfold serialise.
  repeat match goal with |- context [lit ?x] => let l := eval vm_compute in (lit x) in change (lit x) with l end.
  cbn [app]. repeat (rewrite <- !app_assoc; cbn [app]). reflexivity.
Qed.

Lemma c38_round (W : World) (E : jsonenv) (ty ch org : pystr) :
  (forall s, w_json_loads W s = json_loads E s) -> (1 <= je_depth E)%nat ->
  Forall scalar ty -> Forall scalar ch -> Forall scalar org ->
  exists cdj, utf8_encode (serialise ty ch org) = Ok cdj /\
    parse_client_data W cdj
    = Ok {| cd_type := ty; cd_challenge := ch; cd_origin := org; cd_token_binding := None |}.
Proof.
  intros HW D S1 S2 S3. destruct (utf8_encode_total _ (serialise_scalar ty ch org S1 S2 S3)) as (cdj & U).
  exists cdj. split; [exact U|]. apply (c38_exact W E); [exact HW|].
  eexists; eexists. split; [exact U|]. split; [exact (serialise_text E ty ch org D)|].
  assert (L : forall k v l1 l2, [(lit "type", VStr ty); (lit "challenge", VStr ch);
    (lit "origin", VStr org); (lit "crossOrigin", VBool false)] = l1 ++ (lit k, v) :: l2 ->
    (forall v', ~ In (lit k, v') l2) -> member k (dict_of [(lit "type", VStr ty); (lit "challenge", VStr ch);
    (lit "origin", VStr org); (lit "crossOrigin", VBool false)]) v).
  { intros k v l1 l2 Q N. apply c38_last. exists l1, l2. auto. }
  assert (NI : forall k, ~ In (lit k) [lit "type"; lit "challenge"; lit "origin"; lit "crossOrigin"] ->
    dict_find (VStr (lit k)) (dict_of [(lit "type", VStr ty); (lit "challenge", VStr ch);
    (lit "origin", VStr org); (lit "crossOrigin", VBool false)]) = None).
  { intros k N. destruct (dict_find _ _) eqn:F; [|reflexivity]. apply c38_last in F as (l1 & l2 & Q & _).
    exfalso. apply N. change [lit "type"; lit "challenge"; lit "origin"; lit "crossOrigin"] with
      (map fst [(lit "type", VStr ty); (lit "challenge", VStr ch); (lit "origin", VStr org); (lit "crossOrigin", VBool false)]).
    rewrite Q, map_app. apply in_or_app. right. now left. }
  cbn [cd_type cd_challenge cd_origin cd_token_binding].
  split; [|split; [|split]].
  - eapply (L _ _ []); [reflexivity|]. intros v' H. repeat destruct H as [H|H]; try (vm_compute in H; discriminate). destruct H.
  - eapply (L _ _ [_]); [reflexivity|]. intros v' H. repeat destruct H as [H|H]; try (vm_compute in H; discriminate). destruct H.
  - eapply (L _ _ [_; _]); [reflexivity|]. intros v' H. repeat destruct H as [H|H]; try (vm_compute in H; discriminate). destruct H.
  - constructor. intros v F. unfold member in F. rewrite NI in F; [discriminate|]. vm_compute. intuition discriminate.
Qed.

Lemma ex_round_trip :
  (forall s, w_json_loads ex_world s = json_loads ex_json s) /\ (1 <= je_depth ex_json)%nat /\
  Forall scalar [34; 92; 10; 233; 128512] /\
  serialise [34; 92; 10; 233] (lit "c") (lit "o")
  = lit "{""type"":""\""\\\u000a" ++ [233] ++ lit """,""challenge"":""c"",""origin"":""o"",""crossOrigin"":false}".
Proof.
  split; [reflexivity|]. split; [cbn; lia|]. split; [|vm_compute; reflexivity].
  repeat (constructor; [unfold scalar; lia|]). constructor.
Qed.

Lemma client_raise W cdj e : parse_client_data W cdj = Raise e ->
  e = Lib ParserError \/ e = Lib DecodingError \/
  exists text x, utf8_decode cdj = Ok text /\ w_json_loads W text = WRaise x /\ e = Py x /\ x <> EJSONDecodeError.
Proof.
  unfold parse_client_data. intro H. apply bind_raise in H as [H|(v & H1 & H)].
  - destruct (utf8_decode cdj) as [text|x] eqn:D; cbn [bind] in H.
    + destruct (w_json_loads W text) as [v|x] eqn:J; cbn [lift catch] in H; [discriminate|].
      destruct x; cbn in H; try (injection H as <-; auto; right; right; exists text; eexists; repeat split; congruence).
    + assert (X : x = Py EUnicodeDecodeError).
      { exact (utf8_decode_raises cdj x D). }
      subst x. cbn in H. injection H as <-. auto.
  - left. destruct v; try (unfold raise in H; congruence).
    destruct (dict_get (skey "type") d); try (unfold raise in H; congruence).
    destruct (dict_get (skey "challenge") d); try (unfold raise in H; congruence).
    destruct (dict_get (skey "origin") d); try (unfold raise in H; congruence).
    apply bind_raise in H as [H|(tb & _ & H)]; [|discriminate].
    destruct (dict_get (skey "tokenBinding") d); try (unfold raise in H; congruence).
    cbv zeta in H. unfold check, raise in H.
    destruct (negb (is_none _)); cbn [bind] in H; [|congruence].
    destruct (find _ _); cbn [bind] in H; [|congruence].
    destruct (negb _); cbn [bind] in H; congruence.
Qed.

Lemma c38_fail (W : World) (E : jsonenv) (cdj : bytes) (e : exn) :
  (forall s, w_json_loads W s = json_loads E s) ->
  parse_client_data W cdj = Raise e ->
  e = Lib ParserError \/ e = Lib DecodingError \/
  (e = Py EValueError /\ exists m, je_max_digits E = Some m /\ m < N.of_nat (List.length cdj)) \/
  (e = Py ERecursionError /\ (je_depth E < List.length cdj)%nat).
Proof.
  intros HW H. apply client_raise in H as [->|[->|(text & x & D & J & -> & N)]]; auto.
  apply utf8_decode_iff, utf8_encode_length in D. rewrite HW in J.
  apply json_loads_raises in J as [->|[(-> & m & M & L)|(-> & L)]]; [congruence| |].
  - right. right. left. split; [reflexivity|]. exists m. split; [exact M|lia].
  - right. right. right. split; [reflexivity|lia].
Qed.

Lemma c38_partial (W : World) (E : jsonenv) (cdj : bytes) (e : exn) :
  (forall s, w_json_loads W s = json_loads E s) ->
  (List.length cdj <= je_depth E)%nat ->
  (forall m, je_max_digits E = Some m -> N.of_nat (List.length cdj) <= m) ->
  parse_client_data W cdj = Raise e -> e = Lib ParserError \/ e = Lib DecodingError.
Proof.
  intros HW L1 L2 H. apply (c38_fail W E) in H as [->|[->|[(_ & m & M & L)|(_ & L)]]]; auto.
  - specialize (L2 m M). lia.
  - lia.
Qed.

Lemma scan_long E f n ip r : IntPart ip -> follow r ->
  (exists m, je_max_digits E = Some m /\ m < N.of_nat (List.length ip)) ->
  scan E (S f) n (ip ++ r) = WRaise EValueError.
Proof.
  intros Hi Hr (m & M & L). destruct (int_head ip r Hi) as (c & t & Q & D).
  assert (SN : scan_number E (ip ++ r) = WRaise EValueError).
  { unfold scan_number.
    destruct (number_after_sign ip [] [] r Hi (or_introl eq_refl) (or_introl eq_refl) Hr) as (A & B & C).
    cbn [app] in A, B, C. rewrite Q. unfold Digit in D. replace (c =? 45) with false by lia.
    rewrite <- Q. rewrite A, B, C, M. replace (m <? _) with true by lia. reflexivity. }
  rewrite Q in *. cbn [scan]. rewrite (const_digit E c t D), SN. unfold Digit in D.
  replace (c =? 34) with false by lia. replace (c =? 123) with false by lia. replace (c =? 91) with false by lia.
  reflexivity.
Qed.
Lemma scan_deep E : forall n f k, (2 * n + 1 <= f)%nat -> (n < k)%nat ->
  scan E f n (repeat 91 k) = WRaise ERecursionError.
Proof.
  induction n as [|n IH]; intros f k Hf Hk; (destruct f as [|f]; [lia|]); (destruct k as [|k]; [lia|]).
  - reflexivity.
  - cbn [repeat scan]. change (91 =? 34) with false. change (91 =? 123) with false. change (91 =? 91) with true.
    cbv iota zeta. destruct k as [|k]; [lia|]. cbn [repeat skip_ws]. change (is_ws 91) with false. cbv iota.
    change (91 =? 93) with false. cbv iota. destruct f as [|f]; [lia|]. cbn [scan_items].
    change (91 :: repeat 91 k) with (repeat 91 (S k)). rewrite IH by lia. reflexivity.
Qed.
Lemma ascii_bytes s : Forall (fun c => c < 128) s -> utf8_encode s = Ok (map byte_of_N s).
Proof.
  induction 1 as [|c s Hc _ IH]; [reflexivity|]. cbn [utf8_encode map]. rewrite IH.
  unfold utf8_enc1. replace (c <? 128) with true by lia. reflexivity.
Qed.

Lemma c38_long (W : World) (E : jsonenv) (digits : pystr) (m : N) :
  (forall s, w_json_loads W s = json_loads E s) ->
  IntPart digits -> je_max_digits E = Some m -> m < N.of_nat (List.length digits) ->
  parse_client_data W (map byte_of_N digits) = Raise (Py EValueError).
Proof.
  intros HW Hi M L. unfold parse_client_data.
  assert (A : utf8_decode (map byte_of_N digits) = Ok digits).
  { apply utf8_decode_iff, ascii_bytes. eapply Forall_impl; [|exact (proj1 (int_digits _ Hi))].
    unfold Digit. intros; lia. }
  rewrite A. cbn [bind]. rewrite HW. unfold json_loads.
  destruct (int_head digits [] Hi) as (c & t & Q & D). rewrite app_nil_r in Q. unfold Digit in D.
  rewrite Q at 1. replace (c =? 65279) with false by lia.
  assert (SK : skip_ws digits = digits).
  { rewrite Q. cbn [skip_ws]. replace (is_ws c) with false by (unfold is_ws; lia). reflexivity. }
  rewrite SK. rewrite <- (app_nil_r digits) at 2. rewrite scan_long; eauto. exact I.
Qed.

Lemma c38_deep (W : World) (E : jsonenv) (k : nat) :
  (forall s, w_json_loads W s = json_loads E s) -> (je_depth E < k)%nat ->
  parse_client_data W (map byte_of_N (repeat 91 k)) = Raise (Py ERecursionError).
Proof.
  intros HW L. unfold parse_client_data.
  assert (A : utf8_decode (map byte_of_N (repeat 91 k)) = Ok (repeat 91 k)).
  { apply utf8_decode_iff, ascii_bytes. apply Forall_forall. intros x Hx. apply repeat_spec in Hx. lia. }
  rewrite A. cbn [bind]. rewrite HW. unfold json_loads. destruct k as [|k]; [lia|]. cbn [repeat].
  change (91 =? 65279) with false. cbv iota. cbn [skip_ws]. change (is_ws 91) with false. cbv iota.
  change (91 :: repeat 91 k) with (repeat 91 (S k)). rewrite scan_deep; [reflexivity| |exact L].
  rewrite repeat_length. lia.
Qed.

Lemma c38_refuted :
  exists (W : World) (cdj cdj' : bytes),
    parse_client_data W cdj = Raise (Py EValueError) /\
    parse_client_data W cdj' = Raise (Py ERecursionError).
Proof.
  exists ex_world, (map byte_of_N (repeat 49 4301)), (map byte_of_N (repeat 91 1000)).
  split; vm_compute; reflexivity.
Qed.
