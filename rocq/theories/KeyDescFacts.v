(** * KeyDescFacts: errors and uniqueness of key descriptions, and the Android attester
    with its extension decoded by Asn1.v. *)
From Coq Require Import List NArith ZArith Bool Lia ZifyBool ZifyNat ZifyN String Sorting.Sorted.
From Coq Require Import Strings.Byte.
From Verif Require Import Base BaseFacts World Types Crypto Spec Der Asn1 DerSpec DerFacts
  Asn1Facts CryptoFacts AttestFacts.
Import ListNotations.
Local Open Scope list_scope.

(** ** Errors *)

(** The errors of the decoder on input of length [n]. *)
Definition decoder_error (depth n : nat) (e : exn) : Prop :=
  e = Py EPyAsn1Error \/ (e = Py ERecursionError /\ (depth <= n)%nat).

Lemma decoder_error_le depth n m e : (n <= m)%nat ->
  decoder_error depth n e -> decoder_error depth m e.
Proof. intros L [->|[-> H]]; [left; reflexivity|right; split; [reflexivity|lia]]. Qed.

Lemma header_length b t c content rest : header b = Ok (t, c, content, rest) ->
  (List.length content + 2 + List.length rest <= List.length b)%nat.
Proof.
  intros H. apply header_iff in H. destruct H as (bs & -> & I). apply Item_length in I.
  rewrite app_length. lia.
Qed.

Section Errors.
Variable item : candidates -> bytes -> res (nat * dval * bytes).
Variable depth : nat.
Hypothesis item_error : forall cs b e, item cs b = Raise e -> decoder_error depth (List.length b) e.
Hypothesis item_length : forall cs b pos v rest,
  item cs b = Ok (pos, v, rest) -> (List.length rest + 2 <= List.length b)%nat.

Lemma decode_set_error t : forall fuel content e, (List.length content <= fuel)%nat ->
  decode_set item fuel t content = Raise e -> decoder_error depth (List.length content) e.
Proof.
  induction fuel as [|fuel IH]; intros content e L H.
  - destruct content; [discriminate|cbn in L; lia].
  - destruct content as [|x content]; [discriminate|]. cbn [decode_set] in H.
    destruct (item [([universal t], (0%nat, t))] (x :: content)) as [[[pos v] rest]|e'] eqn:I.
    + cbn [bind] in H. destruct (decode_set item fuel t rest) as [r|e'] eqn:R; [discriminate|].
      cbn [bind] in H. injection H as ->. apply item_length in I. cbn [List.length] in *.
      eapply decoder_error_le; [|eapply IH; [|exact R]]; lia.
    + cbn [bind] in H. injection H as ->. eauto.
Qed.

Lemma decode_components_error cs : forall fuel idx content e,
  (List.length content <= fuel)%nat ->
  decode_components item fuel cs idx content = Raise e ->
  decoder_error depth (List.length content) e.
Proof.
  induction fuel as [|fuel IH]; intros idx content e L H.
  - destruct content; [discriminate|cbn in L; lia].
  - destruct content as [|x content]; [discriminate|]. cbn [decode_components] in H.
    destruct (skipn idx cs) as [|c cs'].
    { unfold asn1_error in H. injection H as <-. left. reflexivity. }
    destruct (item _ (x :: content)) as [[[pos v] rest]|e'] eqn:I.
    + cbn [bind] in H. destruct (decode_components item fuel cs (S pos) rest) as [r|e'] eqn:R;
        [discriminate|].
      cbn [bind] in H. injection H as ->. apply item_length in I. cbn [List.length] in *.
      eapply decoder_error_le; [|eapply IH; [|exact R]]; lia.
    + cbn [bind] in H. injection H as ->. eauto.
Qed.

Lemma assemble_error cs : forall idx l e, assemble idx cs l = Raise e -> e = Py EPyAsn1Error.
Proof.
  induction cs as [|c cs IH]; intros idx l e H; [discriminate|]. cbn [assemble] in H.
  unfold asn1_error in H. destruct l as [|[j v] l].
  - destruct (co_optional c); [|congruence].
    destruct (assemble (S idx) cs []) as [r|e'] eqn:A; [discriminate|]. cbn [bind] in H.
    injection H as ->. eauto.
  - destruct (Nat.eqb idx j).
    + destruct (assemble (S idx) cs l) as [r|e'] eqn:A; [discriminate|]. cbn [bind] in H.
      injection H as ->. eauto.
    + destruct (co_optional c); [|congruence].
      destruct (assemble (S idx) cs ((j, v) :: l)) as [r|e'] eqn:A; [discriminate|].
      cbn [bind] in H. injection H as ->. eauto.
Qed.

Lemma decode_content_error t c content e :
  decode_content item t c content = Raise e -> decoder_error depth (List.length content) e.
Proof.
  unfold decode_content, asn1_error. intros H. destruct t.
  - destruct c; [|discriminate]. left. congruence.
  - destruct c; [|discriminate]. left. congruence.
  - left. destruct content as [|x [|? ?]]; try congruence.
    destruct (N_of_byte x =? 255)%N; [discriminate|].
    destruct (N_of_byte x =? 0)%N; [discriminate|congruence].
  - left. destruct c; [congruence|]. destruct content; congruence.
  - destruct c; [|discriminate]. left. congruence.
  - destruct c; [|left; congruence].
    destruct (decode_set item (List.length content) t content) as [r|e'] eqn:D; [discriminate|].
    cbn [bind] in H. injection H as ->. eapply decode_set_error; [|exact D]. lia.
  - destruct c; [|left; congruence].
    destruct (decode_components item (List.length content) components 0 content) as [r|e'] eqn:D.
    + cbn [bind] in H. destruct (assemble 0 components r) as [s|e'] eqn:A; [discriminate|].
      cbn [bind] in H. injection H as ->. left. eapply assemble_error; eauto.
    + cbn [bind] in H. injection H as ->. eapply decode_components_error; [|exact D]. lia.
Qed.
End Errors.

Lemma decode_item_length depth outer cs b pos v rest :
  decode_item depth outer cs b = Ok (pos, v, rest) ->
  (List.length rest + 2 <= List.length b)%nat.
Proof.
  destruct depth as [|depth]; [discriminate|]. rewrite decode_item_header.
  destruct (header b) as [[[[t c] content] rest']|e] eqn:H; [|discriminate].
  apply header_length in H. cbn [bind].
  destruct (lookup (outer ++ [t]) cs) as [[p ty]|].
  - destruct (decode_content _ ty c content); [|discriminate]. cbn [bind]. intros X.
    injection X as _ _ <-. lia.
  - destruct (c && _); [|discriminate].
    destruct (decode_item depth (outer ++ [t]) cs content) as [[[p w] r]|e]; [|discriminate].
    cbn [bind]. intros X. injection X as _ _ <-. lia.
Qed.

Lemma decode_item_error : forall depth outer cs b e,
  decode_item depth outer cs b = Raise e -> decoder_error depth (List.length b) e.
Proof.
  induction depth as [|depth IH]; intros outer cs b e H.
  - injection H as <-. right. split; [reflexivity|lia].
  - rewrite decode_item_header in H.
    destruct (header b) as [[[[t c] content] rest']|e'] eqn:HD.
    2:{ cbn [bind] in H. injection H as ->. left. eapply header_error; eauto. }
    apply header_length in HD. cbn [bind] in H.
    assert (UP : decoder_error depth (List.length content) e ->
                 decoder_error (S depth) (List.length b) e).
    { intros [->|[-> L]]; [left; reflexivity|right]. split; [reflexivity|lia]. }
    destruct (lookup (outer ++ [t]) cs) as [[p ty]|].
    + destruct (decode_content (decode_item depth []) ty c content) as [w|e'] eqn:D;
        [discriminate|].
      cbn [bind] in H. injection H as ->. apply UP.
      apply (decode_content_error (decode_item depth []) depth (IH [])
               (decode_item_length depth []) ty c content). exact D.
    + destruct (c && _).
      * destruct (decode_item depth (outer ++ [t]) cs content) as [[[p w] r]|e'] eqn:D;
          [discriminate|].
        cbn [bind] in H. injection H as ->. apply UP. eapply IH. exact D.
      * unfold asn1_error in H. injection H as <-. left. reflexivity.
Qed.

Lemma decode_key_description_error depth b e : (5 <= depth)%nat ->
  decode_key_description depth b = WRaise e ->
  e = EPyAsn1Error \/ (e = ERecursionError /\ (depth <= List.length b)%nat).
Proof.
  intros L. unfold decode_key_description.
  destruct (der_decode depth (ASequence key_description_schema) b) as [[v rest]|e'] eqn:D.
  - replace depth with (S (S (S (S (S (depth - 5)))))) in D by lia.
    apply der_decode_iff in D. destruct D as (d & p & -> & _ & _).
    rewrite description_slots. discriminate.
  - unfold der_decode in D.
    destruct (decode_item depth [] _ b) as [[[pos v] r]|e2] eqn:I; [discriminate|].
    cbn [bind] in D. injection D as ->. apply decode_item_error in I.
    destruct I as [->|[-> I]]; intros H; injection H as <-; auto.
Qed.

(** ** Uniqueness *)

Lemma map_DInt_inj zs zs' : map DInt zs = map DInt zs' -> zs = zs'.
Proof.
  revert zs'. induction zs as [|z zs IH]; intros [|z' zs'] H; try discriminate; [reflexivity|].
  cbn in H. injection H as -> H. f_equal. auto.
Qed.

Lemma object_of_inj a a' : kind_of a = kind_of a' -> object_of a = object_of a' -> a = a'.
Proof.
  destruct a, a'; cbn [kind_of object_of]; intros K H; try discriminate;
    try (injection H; intros; subst; reflexivity); try reflexivity.
  injection H as H. apply map_DInt_inj in H. congruence.
Qed.

Lemma slots_of_inj tags : StronglySorted N.lt (map fst tags) ->
  forall l l', Known tags l -> Known tags l' -> slots_of tags l = slots_of tags l' -> l = l'.
Proof.
  induction tags as [|[n k] tags IH]; intros SS l l' K K' E.
  - destruct K as [_ F], K' as [_ F']. destruct F as [|? ? []]; destruct F' as [|? ? []].
    reflexivity.
  - assert (SS' : StronglySorted N.lt (map fst tags)) by (inversion SS; assumption).
    assert (NIL : Known tags []) by (split; constructor).
    cbn [slots_of] in E. destruct l as [|[m a] l], l' as [|[m' a'] l'].
    + reflexivity.
    + apply Known_cons in K'; [|exact SS]. destruct K' as [(-> & K2 & K')|[NE K']].
      * rewrite N.eqb_refl in E. discriminate.
      * destruct (m' =? n)%N eqn:X; [lia|]. injection E as E. apply (IH SS'); assumption.
    + apply Known_cons in K; [|exact SS]. destruct K as [(-> & K2 & K)|[NE K]].
      * rewrite N.eqb_refl in E. discriminate.
      * destruct (m =? n)%N eqn:X; [lia|]. injection E as E. apply (IH SS'); assumption.
    + apply Known_cons in K; [|exact SS]. apply Known_cons in K'; [|exact SS].
      destruct K as [(-> & K2 & K)|[NE K]], K' as [(-> & K2' & K')|[NE' K']].
      * rewrite N.eqb_refl in E. injection E as E1 E2.
        apply object_of_inj in E1; [|congruence]. subst a'. f_equal.
        apply (IH SS'); assumption.
      * rewrite N.eqb_refl in E. destruct (m' =? n)%N eqn:X; [lia|discriminate].
      * rewrite N.eqb_refl in E. destruct (m =? n)%N eqn:X; [lia|discriminate].
      * destruct (m =? n)%N eqn:X; [lia|]. destruct (m' =? n)%N eqn:X'; [lia|].
        injection E as E. apply (IH SS'); assumption.
Qed.

Lemma decoded_inj (x y : list (option dval)) (r r' : bytes) :
  Ok (DSeq x, r) = Ok (DSeq y, r') -> x = y /\ r = r'.
Proof. intros H. injection H as -> ->. auto. Qed.

Lemma object_inj a b c d o u s t a' b' c' d' o' u' s' t' :
  [ Some (DInt a); Some (DInt b); Some (DInt c); Some (DInt d); Some (DOctets o);
    Some (DOctets u); Some (DSeq s); Some (DSeq t) ] =
  [ Some (DInt a'); Some (DInt b'); Some (DInt c'); Some (DInt d'); Some (DOctets o');
    Some (DOctets u'); Some (DSeq s'); Some (DSeq t') ] ->
  a = a' /\ b = b' /\ c = c' /\ d = d' /\ o = o' /\ u = u' /\ s = s' /\ t = t'.
Proof. intros H. injection H. intros. subst. auto 10. Qed.

Lemma description_unambiguous d d' p p' r r' :
  DescriptionItem false d p -> DescriptionItem false d' p' -> p ++ r = p' ++ r' ->
  d = d' /\ p = p' /\ r = r'.
Proof.
  intros I I' E.
  assert (D : der_decode 5 (ASequence key_description_schema) (p ++ r)
              = Ok (DSeq (description_object d), r)) by (apply der_decode_iff; eauto).
  assert (D' : der_decode 5 (ASequence key_description_schema) (p ++ r)
              = Ok (DSeq (description_object d'), r'))
    by (apply der_decode_iff; exists d', p'; auto).
  rewrite D in D'. apply decoded_inj in D'. destruct D' as [EO <-].
  assert (EP : p = p') by (eapply app_inv_tail; exact E).
  split; [|auto]. unfold description_object in EO.
  destruct (DescriptionItem_known _ _ _ I) as [K1 K2].
  destruct (DescriptionItem_known _ _ _ I') as [K1' K2'].
  apply object_inj in EO. destruct EO as (E1 & E2 & E3 & E4 & E5 & E6 & E7 & E8).
  apply (slots_of_inj _ android_sorted) in E7; [|assumption..].
  apply (slots_of_inj _ android_sorted) in E8; [|assumption..].
  clear -E1 E2 E3 E4 E5 E6 E7 E8.
  destruct d as [a b c x o u s t], d' as [a' b' c' x' o' u' s' t'].
  cbn in *. subst. reflexivity.
Qed.

(** ** The attester *)

(** What is read of a description. *)
Definition reading (d : description) : key_description :=
  {| kd_challenge := de_challenge d;
     kd_software := read_list (slots_of android_tags (de_software d));
     kd_tee := read_list (slots_of android_tags (de_tee d)) |}.

Lemma reading_read der d p : DescriptionItem der d p -> DescriptionRead d (reading d).
Proof.
  intros I. destruct (DescriptionItem_known _ _ _ I) as [K1 K2].
  exact (conj eq_refl (conj (read_list_spec _ K1) (read_list_spec _ K2))).
Qed.

(** [AndroidSpec] with the extension spelt out: the bytes of a key description. *)
Lemma description_accepts depth ext h : (5 <= depth)%nat ->
  (exists kd purposes, decode_key_description depth ext = WOk kd /\
    kd_challenge kd = h /\
    al_all_applications (kd_software kd) = false /\
    al_all_applications (kd_tee kd) = false /\
    al_origin (kd_tee kd) = Some 0%Z /\
    al_purpose (kd_tee kd) = Some purposes /\ In 2%Z purposes) <->
  (exists d p ignored purposes, ext = p ++ ignored /\ DescriptionItem false d p /\
    de_challenge d = h /\
    ~ In (600%N, FNull) (de_software d) /\ ~ In (600%N, FNull) (de_tee d) /\
    In (702%N, FInt 0) (de_tee d) /\ In (1%N, FSet purposes) (de_tee d) /\ In 2%Z purposes).
Proof.
  intros L. split.
  - intros (kd & ps & D & C & A1 & A2 & O & P & I).
    apply decode_key_description_iff in D; [|exact L].
    destruct D as (d & p & rest & -> & DI & RC & (_ & RA1 & _) & (RP & RA2 & RO)).
    exists d, p, rest, ps. split; [reflexivity|]. split; [exact DI|].
    split; [congruence|]. split; [intros X; apply RA1 in X; congruence|].
    split; [intros X; apply RA2 in X; congruence|].
    split; [apply RO; exact O|]. split; [apply RP; exact P|exact I].
  - intros (d & p & rest & ps & -> & DI & C & A1 & A2 & O & P & I).
    assert (R := reading_read _ _ _ DI).
    exists (reading d), ps. split.
    { apply decode_key_description_iff; [exact L|]. exists d, p, rest. auto. }
    destruct R as (_ & (_ & RA1 & _) & (RP & RA2 & RO)).
    change (kd_challenge (reading d)) with (de_challenge d).
    split; [exact C|].
    split. { apply not_true_iff_false. intros X. apply A1, RA1, X. }
    split. { apply not_true_iff_false. intros X. apply A2, RA2, X. }
    split; [apply RO; exact O|]. split; [apply RP; exact P|exact I].
Qed.

Lemma c62_exact depth b kd : (5 <= depth)%nat ->
  decode_key_description depth b = WOk kd <->
  exists d p ignored, b = p ++ ignored /\ DescriptionItem false d p /\ DescriptionRead d kd.
Proof. apply decode_key_description_iff. Qed.

Lemma c62_der depth d p rest : (5 <= depth)%nat -> DescriptionItem true d p ->
  exists kd, decode_key_description depth (p ++ rest) = WOk kd /\ DescriptionRead d kd.
Proof.
  intros L I. apply DescriptionItem_weaken in I. exists (reading d).
  assert (R := reading_read _ _ _ I). split; [|exact R].
  apply decode_key_description_iff; [exact L|]. exists d, p, rest. auto.
Qed.

Lemma c63_exact (W : World) depth a sig x5c o adb h r : (5 <= depth)%nat ->
  (forall b, w_keydesc W b = decode_key_description depth b) ->
  attest W (S_AndroidKey a sig x5c) (ArgObj o) adb h = Ok r <->
  exists c, r = (AT_BASIC, Some [c]) /\ AndroidDerSpec W a sig x5c o adb h c.
Proof.
  intros L D. rewrite c27. unfold AndroidSpec, AndroidDerSpec. split.
  - intros (c & -> & leaf & chain & certpk & ad & acd & k & ko & s & ext & kd & ps &
      H1 & H2 & H3 & H4 & H5 & H6 & H7 & H8 & H9 & H10 & H11 & H12 & H13).
    rewrite D in H12.
    destruct (proj1 (description_accepts depth ext h L)) as (d & p & ig & ps' & H); [eauto 10|].
    exists c. split; [reflexivity|].
    exists leaf, chain, certpk, ad, acd, k, ko, s, ext, d, p, ig, ps'. auto 20.
  - intros (c & -> & leaf & chain & certpk & ad & acd & k & ko & s & ext & d & p & ig & ps &
      H1 & H2 & H3 & H4 & H5 & H6 & H7 & H8 & H9 & H10 & H11 & H12).
    destruct (proj2 (description_accepts depth ext h L)) as (kd & ps' & H); [eauto 10|].
    exists c. split; [reflexivity|].
    exists leaf, chain, certpk, ad, acd, k, ko, s, ext, kd, ps'. rewrite D. auto 20.
Qed.

(** Once the extension is at hand the attester accepts or raises AttestationError. *)
Lemma c63_refused (W : World) depth a s leaf chain o adb h c certpk ad acd k ko ext :
  (5 <= depth)%nat -> (List.length ext < depth)%nat ->
  (forall b, w_keydesc W b = decode_key_description depth b) ->
  w_load_cert W leaf = WOk c -> ce_public_key c = WOk certpk ->
  ao_auth_data o = Some ad -> ad_attested ad = Some acd -> at_key acd = Some k ->
  KeyObject W k ko -> CertVerifies W certpk a s (adb ++ h) ->
  w_spki W ko = w_spki W certpk -> ce_keydesc c = WOk (Some ext) ->
  attest W (S_AndroidKey a (Some s) (leaf :: chain)) (ArgObj o) adb h
    = Ok (AT_BASIC, Some [c]) \/
  attest W (S_AndroidKey a (Some s) (leaf :: chain)) (ArgObj o) adb h
    = Raise (Lib AttestationError).
Proof.
  intros L LE D H1 H2 H3 H4 H5 H6 H7 H8 H9.
  cbn [attest]. unfold attest_android_key.
  rewrite H1. cbn [lift bind]. rewrite H2. cbn [lift bind].
  assert (K : match certpk with CEC _ _ _ | CEd25519 _ | CEd448 _ => true
                           | COther _ => false end = true) by (inversion H7; reflexivity).
  rewrite K. cbn [check bind arg_auth_data].
  rewrite H3. cbn [assert_some bind]. rewrite H4. cbn [assert_some bind]. rewrite H5.
  apply cpk_iff in H6. rewrite H6. cbn [bind].
  apply cert_verifies_iff in H7; [|destruct certpk; auto; discriminate].
  cbn [assert_some bind] in H7 |- *. rewrite H7. cbn [catch bind].
  rewrite H8, bytes_eqb_refl. cbn [check bind]. rewrite H9. cbn [lift bind assert_some catch].
  rewrite D. destruct (decode_key_description depth ext) as [kd|e] eqn:E.
  2:{ right. apply decode_key_description_error in E; [|exact L].
      destruct E as [->|[_ E]]; [reflexivity|lia]. }
  cbn [lift catch bind].
  destruct (bytes_eqb (kd_challenge kd) h); [|right; reflexivity]. cbn [check bind].
  destruct (negb _); [|right; reflexivity]. cbn [check bind].
  destruct (match al_origin (kd_tee kd) with Some z => _ | None => false end);
    [|right; reflexivity]. cbn [check bind].
  destruct (match al_purpose (kd_tee kd) with Some z => _ | None => false end);
    [left|right]; reflexivity.
Qed.

(** ** Fields the schema does not know *)

Lemma Item_unique cls c n content p r cls' c' n' content' p' r' :
  Item false cls c n content p -> Item false cls' c' n' content' p' ->
  p ++ r = p' ++ r' ->
  cls = cls' /\ c = c' /\ n = n' /\ content = content' /\ p = p' /\ r = r'.
Proof.
  intros I I' E.
  assert (H : header (p ++ r) = Ok ({| tg_class := cls; tg_number := n |}, c, content, r))
    by (apply header_iff; eauto).
  assert (H' : header (p ++ r) = Ok ({| tg_class := cls'; tg_number := n' |}, c', content', r'))
    by (apply header_iff; exists p'; auto).
  rewrite H in H'. injection H' as -> -> -> -> ->.
  apply app_inv_tail in E. auto 10.
Qed.

Lemma IntegerItem_unique t z p r t' z' p' r' :
  IntegerItem false t z p -> IntegerItem false t' z' p' -> p ++ r = p' ++ r' -> r = r'.
Proof.
  intros (c & _ & I) (c' & _ & I') E. eapply Item_unique in I'; [|exact I|exact E]. tauto.
Qed.

(** The parts of a list: fields with these tags, whatever is in them. *)
Definition Tagged (n : N) (p : bytes) : Prop :=
  exists c content, Item false Context c n content p.

Lemma tags_unique ns parts : Forall2 Tagged ns parts ->
  forall l parts', Forall2 (FieldItem false) l parts' ->
  List.concat parts = List.concat parts' -> ns = map fst l.
Proof.
  induction 1 as [|n p ns parts (c & content & I) F IH]; intros l parts' F' E.
  - destruct F' as [|f p' l parts' I' F']; [reflexivity|].
    destruct I' as (inner & ig & _ & _ & I'). apply Item_length in I'. cbn in E.
    destruct p'; [cbn in I'; lia|discriminate].
  - destruct F' as [|f p' l parts' I' F'].
    + apply Item_length in I. cbn in E. destruct p; [cbn in I; lia|discriminate].
    + destruct I' as (inner & ig & _ & _ & I'). cbn [List.concat] in E.
      eapply Item_unique in I'; [|exact I|exact E].
      destruct I' as (_ & _ & -> & _ & _ & E'). cbn [map]. f_equal. eauto.
Qed.

Lemma c64_unknown depth v1 l1 v2 l2 ch uid b1 b2 b3 b4 b5 b6 se_tags se_parts b7
      tee_tags tee_parts b8 bs rest n :
  IntegerItem false 2 v1 b1 -> IntegerItem false 10 l1 b2 ->
  IntegerItem false 2 v2 b3 -> IntegerItem false 10 l2 b4 ->
  OctetsItem false ch b5 -> OctetsItem false uid b6 ->
  Forall2 Tagged se_tags se_parts -> Item false Universal true 16 (List.concat se_parts) b7 ->
  Forall2 Tagged tee_tags tee_parts -> Item false Universal true 16 (List.concat tee_parts) b8 ->
  Item false Universal true 16 (b1 ++ b2 ++ b3 ++ b4 ++ b5 ++ b6 ++ b7 ++ b8) bs ->
  In n (se_tags ++ tee_tags) -> ~ In n (map fst android_tags) ->
  (5 <= depth)%nat -> (List.length (bs ++ rest) < depth)%nat ->
  decode_key_description depth (bs ++ rest) = WRaise EPyAsn1Error.
Proof.
  intros I1 I2 I3 I4 I5 I6 S7 I7 S8 I8 I IN NI L LE.
  destruct (decode_key_description depth (bs ++ rest)) as [kd|e] eqn:D.
  2:{ apply decode_key_description_error in D; [|exact L].
      destruct D as [->|[_ D]]; [reflexivity|lia]. }
  exfalso. apply decode_key_description_iff in D; [|exact L].
  destruct D as (d & p & ig & E & DI & _).
  destruct DI as (c1 & c2 & c3 & c4 & c5 & c6 & c7 & c8 & J1 & J2 & J3 & J4 & J5 & J6 & J7 & J8 & J).
  eapply Item_unique in J; [|exact I|exact E]. destruct J as (_ & _ & _ & EC & _ & _).
  eapply IntegerItem_unique in EC; [|exact I1|exact J1].
  eapply IntegerItem_unique in EC; [|exact I2|exact J2].
  eapply IntegerItem_unique in EC; [|exact I3|exact J3].
  eapply IntegerItem_unique in EC; [|exact I4|exact J4].
  eapply Item_unique in EC; [|exact I5|exact J5]. destruct EC as (_ & _ & _ & _ & _ & EC).
  eapply Item_unique in EC; [|exact I6|exact J6]. destruct EC as (_ & _ & _ & _ & _ & EC).
  destruct J7 as (K7 & parts7 & F7 & J7). destruct J8 as (K8 & parts8 & F8 & J8).
  eapply Item_unique in EC; [|exact I7|exact J7]. destruct EC as (_ & _ & _ & EC7 & _ & EC).
  rewrite <- (app_nil_r b8), <- (app_nil_r c8) in EC.
  eapply Item_unique in EC; [|exact I8|exact J8]. destruct EC as (_ & _ & _ & EC8 & _ & _).
  rewrite (tags_unique _ _ S7 _ _ F7 EC7), (tags_unique _ _ S8 _ _ F8 EC8) in IN.
  apply NI. apply in_app_or in IN.
  destruct K7 as [_ K7], K8 as [_ K8]. rewrite Forall_forall in K7, K8.
  destruct IN as [IN|IN]; apply in_map_iff in IN; destruct IN as (f & <- & IN).
  - apply K7 in IN. apply (in_map fst) in IN. exact IN.
  - apply K8 in IN. apply (in_map fst) in IN. exact IN.
Qed.

(** ** Nested explicit tags *)

Lemma nested_item spec : forall k outer bs, Nested k bs ->
  hd_error outer <> Some (universal spec) ->
  decode_item k outer [([universal spec], (0%nat, spec))] bs = Raise (Py ERecursionError).
Proof.
  induction k as [|k IH]; intros outer bs N O; [reflexivity|].
  inversion N as [|k' cls n content p ig C I N' EK EB]; subst.
  rewrite decode_item_header.
  assert (H : header (p ++ ig) = Ok ({| tg_class := cls; tg_number := n |}, true, content, ig))
    by (apply header_iff; eauto).
  rewrite H. cbn [bind].
  set (t := {| tg_class := cls; tg_number := n |}).
  assert (O' : hd_error (outer ++ [t]) <> Some (universal spec)).
  { destruct outer; [|exact O]. cbn. intros E. injection E as E.
    auto. }
  assert (U : lookup (outer ++ [t]) [([universal spec], (0%nat, spec))] = None).
  { cbn [lookup]. destruct (list_eqb tag_eqb [universal spec] (outer ++ [t])) eqn:E;
      [|reflexivity]. exfalso. destruct (outer ++ [t]) as [|t' l]; [discriminate|].
    cbn [list_eqb] in E. apply andb_prop in E. destruct E as [E _].
    apply O'. cbn. f_equal. symmetry. apply tag_eqb_spec. exact E. }
  rewrite U.
  assert (NU : negb (tag_class_eqb (tg_class t) Universal) = true)
    by (destruct cls; cbn; congruence).
  rewrite NU. cbn [andb]. rewrite IH by assumption. reflexivity.
Qed.

Lemma c65_nesting depth bs : Nested depth bs ->
  decode_key_description depth bs = WRaise ERecursionError.
Proof.
  intros N. unfold decode_key_description, der_decode.
  rewrite nested_item; [reflexivity|exact N|discriminate].
Qed.

(** Ten bytes a level. *)
Fixpoint nest (k : nat) : bytes :=
  match k with
  | O => []
  | S k => let b := nest k in [xa0; x88] ++ N_to_be 8 (N.of_nat (List.length b)) ++ b
  end.

Lemma nest_length k : List.length (nest k) = (10 * k)%nat.
Proof.
  induction k as [|k IH]; [reflexivity|]. cbn [nest app List.length].
  rewrite app_length, N_to_be_length. lia.
Qed.

Lemma nest_nested k : (10 * N.of_nat k < 256 ^ 8)%N -> Nested k (nest k).
Proof.
  induction k as [|k IH]; intros L; [constructor|].
  rewrite <- (app_nil_r (nest (S k))).
  apply Nested_tag with (cls := Context) (n := 0%N) (content := nest k);
    [discriminate| |apply IH; lia].
  exists [xa0], (x88 :: N_to_be 8 (N.of_nat (List.length (nest k)))).
  split; [left; split; [lia|reflexivity]|]. split; [right|reflexivity].
  exists (N_to_be 8 (N.of_nat (List.length (nest k)))).
  rewrite N_to_be_length. split; [lia|]. split; [|split; [reflexivity|discriminate]].
  apply be_to_N_to_be. rewrite nest_length. lia.
Qed.

Lemma c65_escapes (W : World) depth a s leaf chain o adb h c certpk ad acd k ko ext :
  (forall b, w_keydesc W b = decode_key_description depth b) ->
  w_load_cert W leaf = WOk c -> ce_public_key c = WOk certpk ->
  ao_auth_data o = Some ad -> ad_attested ad = Some acd -> at_key acd = Some k ->
  KeyObject W k ko -> CertVerifies W certpk a s (adb ++ h) ->
  w_spki W ko = w_spki W certpk -> ce_keydesc c = WOk (Some ext) -> Nested depth ext ->
  attest W (S_AndroidKey a (Some s) (leaf :: chain)) (ArgObj o) adb h
    = Raise (Py ERecursionError).
Proof.
  intros D H1 H2 H3 H4 H5 H6 H7 H8 H9 N.
  cbn [attest]. unfold attest_android_key.
  rewrite H1. cbn [lift bind]. rewrite H2. cbn [lift bind].
  assert (K : match certpk with CEC _ _ _ | CEd25519 _ | CEd448 _ => true
                           | COther _ => false end = true) by (inversion H7; reflexivity).
  rewrite K. cbn [check bind arg_auth_data].
  rewrite H3. cbn [assert_some bind]. rewrite H4. cbn [assert_some bind]. rewrite H5.
  apply cpk_iff in H6. rewrite H6. cbn [bind].
  apply cert_verifies_iff in H7; [|destruct certpk; auto; discriminate].
  cbn [assert_some bind] in H7 |- *. rewrite H7. cbn [catch bind].
  rewrite H8, bytes_eqb_refl. cbn [check bind]. rewrite H9. cbn [lift bind assert_some catch].
  rewrite D, c65_nesting by exact N. reflexivity.
Qed.
