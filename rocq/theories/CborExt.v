(** * CborExt: bytes after an item do not change what the decoder reads. *)
From Coq Require Import List NArith ZArith Bool Lia ZifyBool ZifyNat ZifyN.
From Coq Require Import Strings.Byte.
From Verif Require Import Base PyVal BaseFacts Json Cbor CborFacts.
Import ListNotations.
Local Open Scope list_scope.
Local Open Scope N_scope.

Lemma cread_ext n b x r t : cread n b = WOk (x, r) -> cread n (b ++ t) = WOk (x, r ++ t).
Proof.
  intro H. apply cread_ok in H as [-> L]. apply cread_ok. split; [now rewrite app_assoc|assumption].
Qed.

Lemma clength_ext sub i b l r t :
  clength sub i b = WOk (l, r) -> clength sub i (b ++ t) = WOk (l, r ++ t).
Proof.
  unfold clength. intro H.
  repeat match type of H with (if ?c then _ else _) = _ => destruct c end;
    try discriminate; try (injection H as <- <-; reflexivity);
    apply wbind_ok in H as ([x r'] & H1 & H); injection H as <- <-;
    now rewrite (cread_ext _ _ _ _ t H1).
Qed.

Lemma cspecial_ext sub b v r t :
  cspecial sub b = WOk (v, r) -> cspecial sub (b ++ t) = WOk (v, r ++ t).
Proof.
  unfold cspecial. intro H.
  repeat match type of H with (if ?c then _ else _) = _ => destruct c end;
    try discriminate; try (injection H as <- <-; reflexivity);
    apply wbind_ok in H as ([x r'] & H1 & H); injection H as <- <-;
    now rewrite (cread_ext _ _ _ _ t H1).
Qed.

Lemma cchunks_ext t f mt : forall f' b cs r, (f <= f')%nat ->
  cchunks f mt b = WOk (cs, r) -> cchunks f' mt (b ++ t) = WOk (cs, r ++ t).
Proof.
  induction f as [|f IH]; intros f' b cs r L H; [discriminate|].
  destruct f' as [|f']; [lia|]. cbn [cchunks] in *.
  destruct b as [|x b]; [discriminate|]. cbn [app]. cbv zeta in *.
  destruct (N_of_byte x =? 255); [injection H as <- <-; reflexivity|].
  destruct (_ =? mt); [|discriminate].
  apply wbind_ok in H as ([l r1] & H1 & H). rewrite (clength_ext _ _ _ _ _ t H1). cbn [wbind].
  destruct l as [l|]; [|discriminate].
  apply wbind_ok in H as ([c r2] & H2 & H). rewrite (cread_ext _ _ _ _ t H2). cbn [wbind].
  apply wcons_ok in H as (tl & H & ->). rewrite (IH f' _ _ _ ltac:(lia) H). reflexivity.
Qed.

Section Tags.
Variable tags : tagsem.
Local Notation cdec := (Cbor.cdec tags).
Local Notation citems := (Cbor.citems tags).
Local Notation cpairs := (Cbor.cpairs tags).

Lemma cdec_ext t f :
  (forall f' d imm b v r, (f <= f')%nat -> cdec f d imm b = WOk (v, r) ->
     cdec f' d imm (b ++ t) = WOk (v, r ++ t)) /\
  (forall f' d imm n b l r, (f <= f')%nat -> citems f d imm n b = WOk (l, r) ->
     citems f' d imm n (b ++ t) = WOk (l, r ++ t)) /\
  (forall f' d imm n b acc m r, (f <= f')%nat -> cpairs f d imm n b acc = WOk (m, r) ->
     cpairs f' d imm n (b ++ t) acc = WOk (m, r ++ t)).
Proof.
  induction f as [|f (IH1 & IH2 & IH3)]; [repeat split; intros; discriminate|].
  split; [|split].
  - intros f' d imm b v r L H. destruct f' as [|f']; [lia|]. apply le_S_n in L.
    cbn [Cbor.cdec] in *. destruct b as [|x b]; [discriminate|]. cbn [app]. cbv zeta in *.
    repeat match type of H with (if ?c then _ else _) = _ => destruct c end; try discriminate.
    + apply wbind_ok in H as ([l r1] & H1 & H). rewrite (clength_ext _ _ _ _ _ t H1). cbn [wbind].
      destruct l; [|discriminate]. now injection H as <- <-.
    + apply wbind_ok in H as ([l r1] & H1 & H). rewrite (clength_ext _ _ _ _ _ t H1). cbn [wbind].
      destruct l; [|discriminate]. now injection H as <- <-.
    + apply wbind_ok in H as ([l r1] & H1 & H). rewrite (clength_ext _ _ _ _ _ t H1). cbn [wbind].
      destruct l.
      * apply wbind_ok in H as ([c r2] & H2 & H). injection H as <- <-.
        now rewrite (cread_ext _ _ _ _ t H2).
      * apply wbind_ok in H as ([c r2] & H2 & H). injection H as <- <-.
        now rewrite (cchunks_ext t f 2 f' _ _ _ L H2).
    + apply wbind_ok in H as ([l r1] & H1 & H). rewrite (clength_ext _ _ _ _ _ t H1). cbn [wbind].
      destruct l.
      * apply wbind_ok in H as ([c r2] & H2 & H). apply wbind_ok in H as (s & H3 & H).
        injection H as <- <-. rewrite (cread_ext _ _ _ _ t H2). cbn [wbind]. now rewrite H3.
      * apply wbind_ok in H as ([c r2] & H2 & H). apply wbind_ok in H as (s & H3 & H).
        injection H as <- <-. rewrite (cchunks_ext t f 3 f' _ _ _ L H2). cbn [wbind]. now rewrite H3.
    + destruct d; [discriminate|].
      apply wbind_ok in H as ([l r1] & H1 & H). rewrite (clength_ext _ _ _ _ _ t H1). cbn [wbind].
      apply wbind_ok in H as ([c r2] & H2 & H). rewrite (IH2 f' _ _ _ _ _ _ L H2). cbn [wbind].
      now injection H as <- <-.
    + destruct d; [discriminate|].
      apply wbind_ok in H as ([l r1] & H1 & H). rewrite (clength_ext _ _ _ _ _ t H1). cbn [wbind].
      apply wbind_ok in H as ([c r2] & H2 & H). rewrite (IH3 f' _ _ _ _ _ _ _ L H2). cbn [wbind].
      now injection H as <- <-.
    + destruct d; [discriminate|].
      apply wbind_ok in H as ([l r1] & H1 & H). rewrite (clength_ext _ _ _ _ _ t H1). cbn [wbind].
      destruct l as [l|]; [|discriminate]. destruct (_ || _); [discriminate|].
      apply wbind_ok in H as ([c r2] & H2 & H). rewrite (IH1 f' _ _ _ _ _ L H2). cbn [wbind].
      apply wbind_ok in H as (w & H3 & H). rewrite H3. now injection H as <- <-.
    + now apply cspecial_ext.
  - intros f' d imm n b l r L H. destruct f' as [|f']; [lia|]. apply le_S_n in L.
    cbn [Cbor.citems] in *. destruct n as [n|].
    + destruct (n =? 0); [now injection H as <- <-|].
      apply wbind_ok in H as ([v r1] & H1 & H). rewrite (IH1 f' _ _ _ _ _ L H1). cbn [wbind].
      apply wcons_ok in H as (tl & H & ->). now rewrite (IH2 f' _ _ _ _ _ _ L H).
    + apply wbind_ok in H as ([v r1] & H1 & H). rewrite (IH1 f' _ _ _ _ _ L H1). cbn [wbind].
      destruct (is_break v); [now injection H as <- <-|].
      apply wcons_ok in H as (tl & H & ->). now rewrite (IH2 f' _ _ _ _ _ _ L H).
  - intros f' d imm n b acc m r L H. destruct f' as [|f']; [lia|]. apply le_S_n in L.
    cbn [Cbor.cpairs] in *. cbv zeta in *.
    assert (Pair : forall n',
      wbind (cdec f d true b) (fun '(k, r) =>
        if match n with None => is_break k | Some _ => false end then WOk (acc, r)
        else wbind (cdec f d imm r) (fun '(v, r1) =>
             cpairs f d imm n' r1 (dict_set k v acc))) = WOk (m, r) ->
      wbind (cdec f' d true (b ++ t)) (fun '(k, r) =>
        if match n with None => is_break k | Some _ => false end then WOk (acc, r)
        else wbind (cdec f' d imm r) (fun '(v, r1) =>
             cpairs f' d imm n' r1 (dict_set k v acc))) = WOk (m, r ++ t)).
    { intros n' Q. apply wbind_ok in Q as ([k r1] & H1 & Q). rewrite (IH1 f' _ _ _ _ _ L H1).
      cbn [wbind]. match type of Q with (if ?c then _ else _) = _ => destruct c end.
      - now injection Q as <- <-.
      - apply wbind_ok in Q as ([v r2] & H2 & Q). rewrite (IH1 f' _ _ _ _ _ L H2). cbn [wbind].
        now apply IH3. }
    destruct n as [n|].
    + destruct (n =? 0); [now injection H as <- <-|]. now apply Pair.
    + now apply Pair.
Qed.

Lemma cbor_load_ext depth b v r t :
  cbor_load_tags tags depth b = WOk (v, r) -> cbor_load_tags tags depth (b ++ t) = WOk (v, r ++ t).
Proof. intro H. eapply (proj1 (cdec_ext t _)); [|exact H]. rewrite app_length. lia. Qed.
End Tags.
