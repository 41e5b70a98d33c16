(** * ClientFacts: parse_client_data, token binding, origins, challenge. *)
From Coq Require Import List NArith ZArith Bool Lia String.
From Verif Require Import Base PyVal BaseFacts B64 Utf8 Url Types World Parsers Crypto
  Backends Spec.
Import ListNotations.
Local Open Scope res_scope.
Local Open Scope list_scope.

Lemma dict_get_str name d s : dict_get (skey name) d = VStr s <-> member name d (VStr s).
Proof.
  unfold dict_get, member, skey. destruct (dict_find _ d); split; congruence.
Qed.

Lemma dict_get_dict name d s : dict_get (skey name) d = VDict s <-> member name d (VDict s).
Proof.
  unfold dict_get, member, skey. destruct (dict_find _ d); split; congruence.
Qed.

Lemma dict_get_none name d : dict_get (skey name) d = VNone <-> absent_or_null name d.
Proof.
  unfold dict_get, absent_or_null, skey. destruct (dict_find _ d) eqn:E; split.
  - intros -> v H. congruence.
  - intro H. now apply H.
  - intros _ v H. discriminate.
  - reflexivity.
Qed.

Lemma is_none_spec v : is_none v = true <-> v = VNone.
Proof. destruct v; split; (reflexivity || discriminate). Qed.

(** The token binding found in the client data object. *)
Inductive TbParsed (d : pydict) : option token_binding -> Prop :=
| tbp_none : absent_or_null "tokenBinding" d -> TbParsed d None
| tbp_some t tb :
    member "tokenBinding" d (VDict t) ->
    member "status" t (VStr (tb_status_value (tb_status_ tb))) ->
    tb_id tb = dict_get (skey "id") t ->
    (tb_status_ tb = TB_PRESENT -> tb_id tb <> VNone) ->
    TbParsed d (Some tb).

Definition tb_parse (d : pydict) : res (option token_binding) :=
  match dict_get (skey "tokenBinding") d with
  | VNone => Ok None
  | VDict t =>
      let status := dict_get (skey "status") t in
      let id_ := dict_get (skey "id") t in
      check (negb (is_none status)) (Lib ParserError) ;;;
      st <- match find (fun s => py_eq (VStr (tb_status_value s)) status)
                       [TB_SUPPORTED; TB_PRESENT] with
            | Some s => Ok s
            | None => raise ParserError
            end ;;
      check (negb (tb_status_eqb st TB_PRESENT && is_none id_)) (Lib ParserError) ;;;
      Ok (Some {| tb_status_ := st; tb_id := id_ |})
  | _ => raise ParserError
  end.

Lemma tb_status_value_inj a b : tb_status_value a = tb_status_value b -> a = b.
Proof. destruct a, b; intro H; try reflexivity; vm_compute in H; discriminate. Qed.

Lemma find_status v s :
  find (fun s => py_eq (VStr (tb_status_value s)) v) [TB_SUPPORTED; TB_PRESENT] = Some s
  <-> v = VStr (tb_status_value s).
Proof.
  split.
  - intro H. apply find_some in H as [_ H]. now apply py_eq_str_l in H.
  - intros ->. destruct s; reflexivity.
Qed.

Lemma tb_parse_ok d o : tb_parse d = Ok o <-> TbParsed d o.
Proof.
  unfold tb_parse. split.
  - destruct (dict_get (skey "tokenBinding") d) eqn:E; try discriminate.
    + intro H; injection H as <-. constructor. now apply dict_get_none.
    + intro H. inv_ok H.
      destruct (find _ _) as [st'|] eqn:F; [|discriminate].
      apply find_status in F.
      inv_ok Hb0.
      econstructor 2 with (t := d0); cbn [tb_status_ tb_id].
      * now apply dict_get_dict.
      * now apply dict_get_str.
      * reflexivity.
      * intros ->. match goal with H : negb (_ && _) = true |- _ => rename H into G end.
        intro Z. rewrite Z in G. discriminate.
  - intro P. inversion P as [Hn|t tb H1 H2 H3 H4]; subst; clear P.
    + apply dict_get_none in Hn. now rewrite Hn.
    + apply dict_get_dict in H1. rewrite H1. apply dict_get_str in H2.
      rewrite H2. cbn [is_none negb check bind].
      rewrite (proj2 (find_status _ (tb_status_ tb)) eq_refl). cbn [bind].
      destruct tb as [st i]; cbn [tb_status_ tb_id] in *. subst i.
      replace (negb _) with true; [reflexivity|].
      destruct st; [reflexivity|]. cbn.
      destruct (is_none _) eqn:N; [|reflexivity]. apply is_none_spec in N.
      exfalso. now apply H4.
Qed.

Section W.
Variable W : World.

(** parse_client_data, characterised. *)
Definition ClientParsed (cdj : bytes) (d : pydict) (c : client_data) : Prop :=
  exists text,
    utf8_decode cdj = Ok text /\ w_json_loads W text = WOk (VDict d) /\
    member "type" d (VStr (cd_type c)) /\
    member "challenge" d (VStr (cd_challenge c)) /\
    member "origin" d (VStr (cd_origin c)) /\
    TbParsed d (cd_token_binding c).

Lemma parse_client_data_ok cdj c :
  parse_client_data W cdj = Ok c <-> exists d, ClientParsed cdj d c.
Proof.
  unfold parse_client_data. split.
  - intro H. apply bind_ok in H as (v & H1 & H). apply catch_ok in H1.
    apply bind_ok in H1 as (text & H1 & H2). apply lift_ok in H2.
    destruct v as [| | | | | | | |d| |]; try discriminate.
    destruct (dict_get (skey "type") d) eqn:E1; try discriminate.
    destruct (dict_get (skey "challenge") d) eqn:E2; try discriminate.
    destruct (dict_get (skey "origin") d) eqn:E3; try discriminate.
    apply bind_ok in H as (tb & H3 & H). change (tb_parse d = Ok tb) in H3.
    injection H as <-. exists d, text. cbn.
    repeat split; try assumption; try now apply dict_get_str. now apply tb_parse_ok.
  - intros (d & text & H1 & H2 & H3 & H4 & H5 & H6).
    rewrite H1. cbn [bind]. rewrite H2. cbn [lift catch bind].
    apply dict_get_str in H3, H4, H5. rewrite H3, H4, H5.
    apply tb_parse_ok in H6. unfold tb_parse in H6. rewrite H6. cbn [bind].
    destruct c; reflexivity.
Qed.

Lemma client_parsed_det cdj d d' c c' :
  ClientParsed cdj d c -> ClientParsed cdj d' c' -> d = d'.
Proof. intros (t & H1 & H2 & _) (t' & H1' & H2' & _). congruence. Qed.

Lemma tb_status_eqb_spec a b : tb_status_eqb a b = true <-> a = b.
Proof. destruct a, b; split; (reflexivity || discriminate). Qed.

Lemma tb_id_val_eq e v : py_eq (tb_id_val e) v = true <-> v = tb_id_val e.
Proof. destruct e; cbn [tb_id_val]; [apply py_eq_str_l|apply py_eq_none_l]. Qed.

Lemma check_token_binding_ok e d c :
  TbParsed d (cd_token_binding c) ->
  (check_token_binding e c = Ok tt <-> TokenBindingSpec e d).
Proof.
  intro P. unfold check_token_binding. split.
  - intro H. destruct e as [e|].
    + destruct (cd_token_binding c) as [tb|] eqn:T; [|discriminate].
      inv_ok H. rename Hb into G1.
      apply tb_status_eqb_spec in G1. apply tb_id_val_eq in H.
      inversion P as [|t tb' H1 H2 H3 H4]; subst.
      destruct (etb_status e) eqn:St.
      * eapply tb_spec_supported with (t := t); eauto.
        { rewrite <- G1 in H2. exact H2. }
        destruct (etb_id e) as [i|]; cbn [tb_id_val] in H; rewrite H3 in H.
        -- now apply dict_get_str.
        -- now apply dict_get_none.
      * destruct (etb_id e) as [i|] eqn:Ei; cbn [tb_id_val] in H.
        -- eapply tb_spec_present with (t := t) (i := i); eauto.
           { rewrite <- G1 in H2. exact H2. }
           rewrite H3 in H. now apply dict_get_str.
        -- exfalso. now apply H4.
    + apply check_ok in H. destruct (cd_token_binding c) as [tb|] eqn:T; [discriminate|].
      inversion P; subst. now apply tb_spec_absent.
  - intro H. inversion P as [Hn HT|t tb H1 H2 H3 H4 HT]; symmetry in HT.
    + inversion H as [E _|e0 t E _ M _ _|e0 t i E _ _ M _ _]; subst; [reflexivity| |];
        apply dict_get_none in Hn; apply dict_get_dict in M; congruence.
    + inversion H as [E Hn|e0 t0 E St M Ms Mi|e0 t0 i E St Ei M Ms Mi]; subst.
      * apply dict_get_none in Hn; apply dict_get_dict in H1; congruence.
      * assert (t0 = t) by (unfold member in *; congruence). subst t0.
        assert (S : tb_status_value (tb_status_ tb) = tb_status_value TB_SUPPORTED)
          by (change (tb_status_value TB_SUPPORTED) with (lit "supported"); unfold member in *; congruence).
        apply tb_status_value_inj in S. rewrite St, S. cbn [tb_status_eqb check bind].
        apply check_ok. apply tb_id_val_eq. rewrite H3. destruct (etb_id e0); cbn [tb_id_val].
        -- now apply dict_get_str.
        -- now apply dict_get_none.
      * assert (t0 = t) by (unfold member in *; congruence). subst t0.
        assert (S : tb_status_value (tb_status_ tb) = tb_status_value TB_PRESENT)
          by (change (tb_status_value TB_PRESENT) with (lit "present"); unfold member in *; congruence).
        apply tb_status_value_inj in S. rewrite St, S, Ei. cbn [tb_status_eqb check bind].
        apply check_ok. apply tb_id_val_eq. rewrite H3. cbn [tb_id_val].
        now apply dict_get_str.
Qed.

(** Origins. *)
Lemma origin_eqb_spec a b : origin_eqb a b = true <-> a = b.
Proof.
  unfold origin_eqb. rewrite !andb_true_iff, !str_eqb_spec, N.eqb_eq.
  destruct a, b; cbn. split; [intros [[-> ->] ->]; reflexivity|].
  intro H; injection H as -> -> ->. auto.
Qed.

Lemma parse_origins_ok l os :
  parse_origins W l = Ok os <->
  Forall2 (fun s o => parse_origin (w_url W) s = Ok o) l os.
Proof.
  revert os; induction l as [|s t IH]; intros os; cbn; split.
  - intro H; injection H as <-. constructor.
  - intro H; inversion H; reflexivity.
  - intro H. inv_ok H. constructor; [assumption|]. now apply IH.
  - intro H; inversion H as [|? o ? os' H1 H2]; subst. rewrite H1. cbn [bind].
    apply IH in H2. rewrite H2. reflexivity.
Qed.

Lemma extract_allowed_ok e os :
  extract_allowed_origins W e = Ok os <->
  allowed_strings e <> [] /\
  Forall2 (fun s o => parse_origin (w_url W) s = Ok o) (allowed_strings e) os.
Proof.
  destruct e as [s|l]; cbn.
  - split.
    + intro H. inv_ok H. split; [discriminate|]. repeat constructor; assumption.
    + intros [_ H]. inversion H as [|? o ? os' H1 H2]; subst. inversion H2; subst.
      now rewrite H1.
  - destruct l as [|s t].
    + split; [discriminate|]. intros [H _]; congruence.
    + rewrite parse_origins_ok. split; [|intros [_ H]; exact H].
      intro H; split; [discriminate|exact H].
Qed.

Lemma check_origin_ok os c :
  check_origin W os c = Ok tt <->
  exists o, parse_origin (w_url W) (cd_origin c) = Ok o /\ In o os.
Proof.
  unfold check_origin. split.
  - intro H. inv_ok H. apply existsb_exists in H as (o & Hin & E).
    apply origin_eqb_spec in E. subst. eauto.
  - intros (o & E & Hin). rewrite E. cbn [bind]. apply check_ok.
    apply existsb_exists. exists o. split; [assumption|]. now apply origin_eqb_spec.
Qed.

Lemma Forall2_in_l {A B} (P : A -> B -> Prop) l m a :
  Forall2 P l m -> In a l -> exists b, In b m /\ P a b.
Proof.
  induction 1 as [|x y l m H _ IH]; [intros []|]. intros [<-|Hin].
  - exists y; cbn; auto.
  - destruct (IH Hin) as (b & ? & ?). exists b; cbn; auto.
Qed.
Lemma Forall2_in_r {A B} (P : A -> B -> Prop) l m b :
  Forall2 P l m -> In b m -> exists a, In a l /\ P a b.
Proof.
  induction 1 as [|x y l m H _ IH]; [intros []|]. intros [<-|Hin].
  - exists x; cbn; auto.
  - destruct (IH Hin) as (a & ? & ?). exists a; cbn; auto.
Qed.

Lemma origin_spec_iff e org :
  OriginSpec W e org <->
  exists os o, extract_allowed_origins W e = Ok os /\
             parse_origin (w_url W) org = Ok o /\ In o os.
Proof.
  split.
  - intros [Hall (s & o & Hin & H1 & H2)].
    assert (F : exists os, Forall2 (fun s o => parse_origin (w_url W) s = Ok o)
                             (allowed_strings e) os).
    { clear - Hall. induction (allowed_strings e) as [|x t IH].
      - exists []. constructor.
      - destruct (Hall x (or_introl eq_refl)) as (o & Ho).
        destruct IH as (os & Hos). { intros; apply Hall; cbn; auto. }
        exists (o :: os). now constructor. }
    destruct F as (os & F). exists os, o. repeat split.
    + apply extract_allowed_ok. split; [|assumption]. intro E; rewrite E in Hin; destruct Hin.
    + assumption.
    + destruct (Forall2_in_l _ _ _ _ F Hin) as (o' & ? & ?). congruence.
  - intros (os & o & H1 & H2 & Hin). apply extract_allowed_ok in H1 as [_ F]. split.
    + intros s Hs. destruct (Forall2_in_l _ _ _ _ F Hs) as (o' & _ & ?). eauto.
    + destruct (Forall2_in_r _ _ _ _ F Hin) as (s & ? & ?). eauto 6.
Qed.

Lemma check_challenge_ok ch c :
  check_challenge ch c = Ok tt <-> url_base64_decode (cd_challenge c) = Ok ch.
Proof.
  unfold check_challenge. split.
  - intro H. inv_ok H. apply bytes_eqb_spec in H. congruence.
  - intros ->. cbn. now rewrite bytes_eqb_refl.
Qed.

(** The four client data checks together. *)
Lemma client_data_spec_iff ceremony ch e tb cdj :
  ClientDataSpec W ceremony ch e tb cdj <->
  exists os c,
    extract_allowed_origins W e = Ok os /\
    parse_client_data W cdj = Ok c /\
    cd_type c = lit ceremony /\
    check_challenge ch c = Ok tt /\
    check_origin W os c = Ok tt /\
    check_token_binding tb c = Ok tt.
Proof.
  split.
  - intros (text & d & chs & org & H1 & H2 & H3 & H4 & H5 & H6 & H7 & H8).
    apply origin_spec_iff in H7 as (os & o & G1 & G2 & G3).
    (* the parsed token binding *)
    assert (T : exists otb, TbParsed d otb).
    { inversion H8 as [_ Hn|e0 t _ St M Ms Mi|e0 t i _ St Ei M Ms Mi].
      - exists None. now constructor.
      - exists (Some {| tb_status_ := TB_SUPPORTED; tb_id := dict_get (skey "id") t |}).
        econstructor; cbn; eauto. discriminate.
      - exists (Some {| tb_status_ := TB_PRESENT; tb_id := dict_get (skey "id") t |}).
        econstructor; cbn; eauto. intros _. apply dict_get_str in Mi. congruence. }
    destruct T as (otb & T).
    exists os, {| cd_type := lit ceremony; cd_challenge := chs; cd_origin := org;
                  cd_token_binding := otb |}.
    repeat split.
    + assumption.
    + apply parse_client_data_ok. exists d, text. cbn. auto 8.
    + now apply check_challenge_ok.
    + apply check_origin_ok. exists o. auto.
    + now apply check_token_binding_ok with (d := d).
  - intros (os & c & H1 & H2 & H3 & H4 & H5 & H6).
    apply parse_client_data_ok in H2 as (d & text & G1 & G2 & G3 & G4 & G5 & G6).
    assert (O : OriginSpec W e (cd_origin c)).
    { apply check_origin_ok in H5 as (o & ? & ?). apply origin_spec_iff. eauto. }
    exists text, d, (cd_challenge c), (cd_origin c).
    split; [assumption|]. split; [assumption|]. split; [now rewrite <- H3|].
    split; [assumption|]. split; [now apply check_challenge_ok|].
    split; [assumption|]. split; [assumption|].
    now apply check_token_binding_ok with (c := c).
Qed.

End W.
