(** * FormatFacts: the parsers against FormatSpec. *)
From Coq Require Import List NArith ZArith Bool Lia ZifyBool ZifyNat ZifyN String.
From Verif Require Import Base PyVal BaseFacts B64 Utf8 Url Types World FormatSpec Parsers.
Import ListNotations.
Local Open Scope res_scope.
Local Open Scope list_scope.

(** ** Dictionary fields *)

Lemma field_required k ts d v :
  parse_dictionary_field k ts d true = Ok v <->
  dict_find k d = Some v /\ v <> VNone /\ In (type_of v) ts.
Proof.
  unfold parse_dictionary_field, dict_get. destruct (dict_find k d) as [x|]; cbn.
  - destruct (is_none x) eqn:E.
    + split; [discriminate|]. intros (H & N & _). injection H as ->.
      destruct v; try discriminate. congruence.
    + destruct (type_in x ts) eqn:T.
      * apply type_in_spec in T. split.
        -- intro H; injection H as ->. repeat split; [|assumption]. intros ->; discriminate.
        -- intros (H & _ & _). congruence.
      * split; [discriminate|]. intros (H & _ & I). injection H as ->.
        apply type_in_spec in I. congruence.
  - split; [discriminate|]. intros (H & _); discriminate.
Qed.

Lemma field_optional k ts d v :
  parse_dictionary_field k ts d false = Ok v <->
  (v = VNone /\ (forall x, dict_find k d = Some x -> x = VNone)) \/
  (v <> VNone /\ dict_find k d = Some v /\ In (type_of v) ts).
Proof.
  unfold parse_dictionary_field, dict_get. destruct (dict_find k d) as [x|]; cbn.
  - destruct (is_none x) eqn:E.
    + destruct x; try discriminate. split.
      * intro H; injection H as <-. left. split; [reflexivity|congruence].
      * intros [[-> _]|(N & H & _)]; [reflexivity|congruence].
    + assert (Nx : x <> VNone) by (intros ->; discriminate).
      destruct (type_in x ts) eqn:T.
      * apply type_in_spec in T. split.
        -- intro H; injection H as ->. right; auto.
        -- intros [[-> H]|(_ & H & _)]; [elim (Nx (H _ eq_refl))|congruence].
      * split; [discriminate|]. intros [[-> H]|(_ & H & I)]; [elim (Nx (H _ eq_refl))|].
        injection H as ->. apply type_in_spec in I. congruence.
  - split.
    + intro H; injection H as <-. left; split; [reflexivity|discriminate].
    + intros [[-> _]|(_ & H & _)]; [reflexivity|discriminate].
Qed.

Lemma field_bytes_ok k d b : field_bytes k d = Ok b <-> dict_find k d = Some (VBytes b).
Proof.
  unfold field_bytes. rewrite bind_ok. split.
  - intros (v & H & E). apply field_required in H as (H & _ & [T|[]]).
    destruct v; try discriminate. cbn in E. congruence.
  - intro H. exists (VBytes b). split; [|reflexivity]. apply field_required.
    repeat split; [assumption|discriminate|cbn; auto].
Qed.
Lemma field_str_ok k d s : field_str k d = Ok s <-> dict_find k d = Some (VStr s).
Proof.
  unfold field_str. rewrite bind_ok. split.
  - intros (v & H & E). apply field_required in H as (H & _ & [T|[]]).
    destruct v; try discriminate. cbn in E. congruence.
  - intro H. exists (VStr s). split; [|reflexivity]. apply field_required.
    repeat split; [assumption|discriminate|cbn; auto].
Qed.
Lemma field_dict_ok k d m : field_dict k d = Ok m <-> dict_find k d = Some (VDict m).
Proof.
  unfold field_dict. rewrite bind_ok. split.
  - intros (v & H & E). apply field_required in H as (H & _ & [T|[]]).
    destruct v; try discriminate. cbn in E. congruence.
  - intro H. exists (VDict m). split; [|reflexivity]. apply field_required.
    repeat split; [assumption|discriminate|cbn; auto].
Qed.
Lemma field_opt_bytes_ok k d o :
  field_opt_bytes k d = Ok o <->
  match o with None => forall v, dict_find k d = Some v -> v = VNone
             | Some b => dict_find k d = Some (VBytes b) end.
Proof.
  unfold field_opt_bytes. rewrite bind_ok. split.
  - intros (v & H & E). apply field_optional in H as [[-> H]|(N & H & [T|[]])].
    + cbn in E. injection E as <-. exact H.
    + destruct v; try discriminate. cbn in E. injection E as <-. exact H.
  - intro H. destruct o as [b|].
    + exists (VBytes b). split; [|reflexivity]. apply field_optional. right.
      repeat split; [discriminate|assumption|cbn; auto].
    + exists VNone. split; [|reflexivity]. apply field_optional. left; auto.
Qed.
Lemma field_opt_str_ok k d o :
  field_opt_str k d = Ok o <->
  match o with None => forall v, dict_find k d = Some v -> v = VNone
             | Some b => dict_find k d = Some (VStr b) end.
Proof.
  unfold field_opt_str. rewrite bind_ok. split.
  - intros (v & H & E). apply field_optional in H as [[-> H]|(N & H & [T|[]])].
    + cbn in E. injection E as <-. exact H.
    + destruct v; try discriminate. cbn in E. injection E as <-. exact H.
  - intro H. destruct o as [b|].
    + exists (VStr b). split; [|reflexivity]. apply field_optional. right.
      repeat split; [discriminate|assumption|cbn; auto].
    + exists VNone. split; [|reflexivity]. apply field_optional. left; auto.
Qed.

Section WithWorld.
Context {W : World}.

Lemma check_keys_ok names d :
  check_unsupported_keys W (map lit names) d = Ok tt <-> only_members names d.
Proof.
  unfold check_unsupported_keys, only_members. rewrite check_ok, forallb_forall. split.
  - intros H k v Hin. specialize (H _ Hin). cbn in H. apply existsb_exists in H as (s & Hs & E).
    apply in_map_iff in Hs as (n & <- & Hn). apply py_eq_str in E. eauto.
  - intros H [k v] Hin. cbn. destruct (H _ _ Hin) as (n & Hn & ->).
    apply existsb_exists. exists (lit n). split; [now apply in_map|]. now apply py_eq_str.
Qed.

Lemma check_keys_okb names d (u : unit) :
  check_unsupported_keys W (map lit names) d = Ok u <-> only_members names d.
Proof. destruct u. apply check_keys_ok. Qed.

(** ** Registries *)

Lemma enum_call_entry {A} (t : enum_table A) (tbl : list (Z * string * A)) :
  (forall z, find (fun a => Z.eqb (en_value t a) z) (en_members t)
             = option_map snd (find (fun e => Z.eqb (fst (fst e)) z) tbl)) ->
  (forall s, find (fun a => str_eqb (en_name t a) s) (en_members t)
             = option_map snd (find (fun e => str_eqb (lit (snd (fst e))) s) tbl)) ->
  (forall e e', In e tbl -> In e' tbl -> fst (fst e) = fst (fst e') -> e = e') ->
  (forall e e', In e tbl -> In e' tbl -> lit (snd (fst e)) = lit (snd (fst e')) -> e = e') ->
  forall v m, enum_call t v = Ok m <-> entry tbl v m.
Proof.
  intros HV HN UV UN v m. unfold entry. split.
  - intro H. destruct v; cbn in H; try discriminate.
    + rewrite HV in H. destruct (find _ tbl) as [[[z' n] a]|] eqn:F; [|discriminate].
      cbn in H. injection H as <-. apply find_some in F as [I E]. cbn in E.
      apply Z.eqb_eq in E. subst. exists z, n, a. auto.
    + rewrite HN in H. destruct (find _ tbl) as [[[z' n] a]|] eqn:F; [|discriminate].
      cbn in H. injection H as <-. apply find_some in F as [I E]. cbn in E.
      apply str_eqb_spec in E. subst. exists z', n, a. auto.
  - intros (z & n & a & I & [[-> ->]|[-> ->]]); cbn.
    + rewrite HV. destruct (find _ tbl) as [e|] eqn:F.
      * apply find_some in F as [I' E]. apply Z.eqb_eq in E.
        rewrite (UV _ _ I' I) by exact E. reflexivity.
      * pose proof (find_none _ _ F _ I) as N. cbn in N. rewrite Z.eqb_refl in N. discriminate.
    + rewrite HN. destruct (find _ tbl) as [e|] eqn:F.
      * apply find_some in F as [I' E]. apply str_eqb_spec in E.
        rewrite (UN _ _ I' I) by exact E. reflexivity.
      * pose proof (find_none _ _ F _ I) as N. cbn in N. rewrite str_eqb_refl in N. discriminate.
Qed.

Ltac enum_tac :=
  apply enum_call_entry;
  [ let z := fresh "z" in intro z; cbn [find en_members en_value option_map snd fst kty_enum alg_enum keyop_enum
                  ec2curve_enum okpcurve_enum curve_value
                  kty_table alg_table ec2_table okp_table op_table];
    repeat (match goal with |- context [Z.eqb ?a z] => destruct (Z.eqb a z); [reflexivity|] end);
    reflexivity
  | let s := fresh "s" in intro s;
    unfold kty_table, alg_table, ec2_table, okp_table, op_table,
           kty_enum, alg_enum, keyop_enum, ec2curve_enum, okpcurve_enum, curve_name;
    cbn [find en_members en_name option_map snd fst];
    repeat (match goal with |- context [if str_eqb ?a s then _ else _] =>
                              destruct (str_eqb a s); [reflexivity|] end);
    reflexivity
  | let e := fresh "e" in let e' := fresh "e" in let I := fresh "I" in
    let I' := fresh "I" in let E := fresh "E" in
    intros e e' I I' E; cbn in I, I';
    repeat match goal with
           | H : _ \/ _ |- _ => destruct H as [<-|H]
           | H : False |- _ => destruct H
           end; cbn in E; try reflexivity; discriminate
  | let e := fresh "e" in let e' := fresh "e" in let I := fresh "I" in
    let I' := fresh "I" in let E := fresh "E" in
    intros e e' I I' E; cbn in I, I';
    repeat match goal with
           | H : _ \/ _ |- _ => destruct H as [<-|H]
           | H : False |- _ => destruct H
           end; cbn in E; try reflexivity; discriminate ].

Lemma kty_entry v m : enum_call kty_enum v = Ok m <-> entry kty_table v m.
Proof. revert v m. enum_tac. Qed.
Lemma alg_entry v m : enum_call alg_enum v = Ok m <-> entry alg_table v m.
Proof. revert v m. enum_tac. Qed.
Lemma ec2_entry v m : enum_call ec2curve_enum v = Ok m <-> entry ec2_table v m.
Proof. revert v m. enum_tac. Qed.
Lemma okp_entry v m : enum_call okpcurve_enum v = Ok m <-> entry okp_table v m.
Proof. revert v m. enum_tac. Qed.
Lemma op_entry v m : enum_call keyop_enum v = Ok m <-> entry op_table v m.
Proof. revert v m. enum_tac. Qed.

Lemma entry_shape {A} (tbl : list (Z * string * A)) v m :
  entry tbl v m -> (exists z, v = VInt z) \/ (exists s, v = VStr s).
Proof. intros (z & n & a & _ & [[-> _]|[-> _]]); eauto. Qed.

(** A required field holding a registry entry. *)
Lemma field_entry {A} (t : enum_table A) tbl k d ts m (x : pyval -> exn) :
  (forall v m, enum_call t v = Ok m <-> entry tbl v m) ->
  ts = [TInt; TStr] \/ ts = [TStr; TInt] ->
  (raw <- parse_dictionary_field k ts d true ;;
   catch (enum_call t raw) is_KeyOrValueError (x raw)) = Ok m <->
  exists v, dict_find k d = Some v /\ entry tbl v m.
Proof.
  intros HE Hts. rewrite bind_ok. split.
  - intros (v & H1 & H2). apply field_required in H1 as (H1 & _ & _).
    apply catch_ok, HE in H2. eauto.
  - intros (v & H1 & H2). exists v. split.
    + apply field_required. destruct (entry_shape _ _ _ H2) as [(z & ->)|(s & ->)];
        (repeat split; [assumption|discriminate|]); destruct Hts as [-> | ->]; cbn; auto.
    + now apply catch_ok, HE.
Qed.

Lemma parse_kty_ok d m : parse_kty W d = Ok m <-> exists v, label 1 d v /\ entry kty_table v m.
Proof. apply (field_entry _ _ _ _ _ _ (fun raw => complaint W [raw])); [exact kty_entry|auto]. Qed.
Lemma parse_alg_ok d m : parse_alg W d = Ok m <-> exists v, label 3 d v /\ entry alg_table v m.
Proof. apply (field_entry _ _ _ _ _ _ (fun raw => complaint W [raw])); [exact alg_entry|auto]. Qed.
Lemma parse_crv_ec2_ok d m :
  parse_crv W ec2curve_enum d = Ok m <-> exists v, label (-1) d v /\ entry ec2_table v m.
Proof. apply (field_entry _ _ _ _ _ _ (fun raw => complaint W [raw])); [exact ec2_entry|auto]. Qed.
Lemma parse_crv_okp_ok d m :
  parse_crv W okpcurve_enum d = Ok m <-> exists v, label (-1) d v /\ entry okp_table v m.
Proof. apply (field_entry _ _ _ _ _ _ (fun raw => complaint W [raw])); [exact okp_entry|auto]. Qed.
Lemma parse_stmt_alg_ok d m : parse_stmt_alg W d = Ok m <-> stmt_alg d m.
Proof. apply (field_entry _ _ _ _ _ _ (fun raw => complaint W [raw])); [exact alg_entry|auto]. Qed.

Lemma key_op_list_ok all vs ops :
  parse_key_op_list W all vs = Ok ops <-> Forall2 (entry op_table) vs ops.
Proof.
  revert ops. induction vs as [|v t IH]; intro ops; cbn [parse_key_op_list].
  - split; [intro H; injection H as <-; constructor|intro H; now inversion H].
  - split.
    + intro H. apply bind_ok in H as (? & H1 & H). apply bind_ok in H as (o & H2 & H).
      apply bind_ok in H as (r & H3 & H). injection H as <-.
      apply catch_ok, op_entry in H2. constructor; [assumption|now apply IH].
    + intro H. inversion H as [|? o ? r H2 H3]; subst. apply IH in H3.
      assert (T : type_in v [TStr; TInt] = true).
      { apply type_in_spec. destruct (entry_shape _ _ _ H2) as [(z & ->)|(s & ->)]; cbn; auto. }
      apply op_entry in H2. rewrite T. cbn [check bind].
      rewrite H2. cbn [catch bind]. rewrite H3. reflexivity.
Qed.

Lemma parse_key_ops_ok d o : parse_key_ops W d = Ok o <-> opt_label 4 d key_ops_shape o.
Proof.
  unfold parse_key_ops. rewrite bind_ok. split.
  - intros (raw & H1 & H). apply field_optional in H1 as [[-> H1]|(N & H1 & T)].
    + cbn in H. injection H as <-. exact H1.
    + replace (is_none raw) with false in H by (destruct raw; try reflexivity; congruence).
      apply bind_ok in H as (l & HL & H). apply bind_ok in H as (? & HC & H).
      apply bind_ok in H as (ops & HO & H). injection H as <-.
      apply check_ok, negb_true_iff, Nat.ltb_ge in HC. apply key_op_list_ok in HO.
      exists raw. split; [exact H1|]. split.
      * intros ->. inversion HO; subst. cbn in HC. lia.
      * exists l. split; [|exact HO]. destruct raw; try discriminate; injection HL as ->; auto.
  - destruct o as [ops|]; cbn [opt_label].
    + intros (v & HL & NE & vs & HV & HO). exists v. split.
      * apply field_optional. right. destruct HV as [-> | ->];
          (repeat split; [discriminate|exact HL|cbn; auto]).
      * replace (is_none v) with false by (destruct HV as [-> | ->]; reflexivity).
        replace (as_seq v) with (Ok vs) by (destruct HV as [-> | ->]; reflexivity).
        cbn [bind].
        assert (LV : Nat.ltb (List.length vs) 1 = false).
        { apply Nat.ltb_ge. inversion HO; subst; [congruence|cbn; lia]. }
        rewrite LV. cbn [negb check bind]. apply (key_op_list_ok v) in HO. rewrite HO. reflexivity.
    + intro H. exists VNone. split; [|reflexivity]. apply field_optional. left; auto.
Qed.

Lemma opt_label_bytes z d o :
  field_opt_bytes (ikey z) d = Ok o <-> opt_label z d is_bytes o.
Proof.
  rewrite field_opt_bytes_ok. destruct o as [b|]; cbn; [|reflexivity].
  unfold label, is_bytes, ikey. split; [eauto|intros (v & H & ->); exact H].
Qed.

Lemma parse_key_base_ok d b : parse_key_base W d = Ok b <-> CoseBase d b.
Proof.
  unfold parse_key_base, CoseBase. split.
  - intro H. apply bind_ok in H as (k & H1 & H). apply bind_ok in H as (kid & H2 & H).
    apply bind_ok in H as (a & H3 & H). apply bind_ok in H as (ops & H4 & H).
    apply bind_ok in H as (iv & H5 & H). injection H as <-.
    apply parse_kty_ok in H1. apply opt_label_bytes in H2, H5.
    apply parse_alg_ok in H3 as (v & H3 & H3'). apply parse_key_ops_ok in H4. cbn.
    repeat split; eauto.
  - intros (H1 & H2 & (v & a & H3 & H3' & E) & H4 & H5).
    apply parse_kty_ok in H1. apply opt_label_bytes in H2, H5. apply parse_key_ops_ok in H4.
    assert (HA : parse_alg W d = Ok a) by (apply parse_alg_ok; eauto).
    destruct b as [kt kid al ops iv]; cbn in *. subst al.
    rewrite H1. cbn [bind]. rewrite H2. cbn [bind]. rewrite HA. cbn [bind]. rewrite H4.
    cbn [bind]. rewrite H5. reflexivity.
Qed.

(** C33 *)
Lemma cose_key_iff d k : parse_cose_key_dict W d = Ok k <-> CoseKey d k.
Proof.
  unfold parse_cose_key_dict. split.
  - intro H. apply bind_ok in H as (t & HT & H). apply catch_ok, bind_ok in HT as (v1 & HI & HT).
    assert (L1 : label 1 d v1).
    { unfold dict_index in HI. unfold label. change (ikey 1) with (VInt 1) in HI.
      destruct (dict_find (VInt 1) d); congruence. }
    apply kty_entry in HT.
    assert (KB : forall b, parse_key_base W d = Ok b -> CoseBase d b /\ kb_kty b = t).
    { intros b HB. apply parse_key_base_ok in HB. split; [assumption|].
      destruct HB as ((v & L & E) & _). unfold label in *. rewrite L1 in L.
      injection L as <-. apply kty_entry in E, HT. congruence. }
    destruct (snd t) eqn:ET; [| |discriminate].
    + unfold parse_okp_public_key in H. apply bind_ok in H as (x & H1 & H).
      apply bind_ok in H as (crv & H2 & H). cbn zeta in H. apply bind_ok in H as (? & H3 & H).
      apply bind_ok in H as (b & H4 & H). injection H as <-.
      apply field_bytes_ok in H1. apply parse_crv_okp_ok in H2 as (v & H2 & H2').
      apply check_ok, Nat.eqb_eq in H3. destruct (KB _ H4) as (HB & E).
      eapply ck_okp; eauto. now rewrite E.
    + unfold parse_ec2_public_key in H. apply bind_ok in H as (x & H1 & H).
      apply bind_ok in H as (y & H1' & H).
      apply bind_ok in H as (crv & H2 & H). cbn zeta in H. apply bind_ok in H as (? & H3 & H).
      apply bind_ok in H as (b & H4 & H). injection H as <-.
      apply field_bytes_ok in H1, H1'. apply parse_crv_ec2_ok in H2 as (v & H2 & H2').
      apply check_ok, negb_true_iff, orb_false_iff in H3 as [H3 H3'].
      apply negb_false_iff, Nat.eqb_eq in H3, H3'. destruct (KB _ H4) as (HB & E).
      eapply ck_ec2; eauto. now rewrite E.
  - intro H. inversion H as [b x y crv v HB HK HC HE HX HY LX LY|b x crv v HB HK HC HE HX LX]; subst.
    + pose proof HB as ((v1 & L1 & E1) & _). apply kty_entry in E1.
      unfold dict_index, ikey. unfold label in L1. rewrite L1. cbn [bind]. rewrite E1.
      cbn [catch bind]. rewrite HK. unfold parse_ec2_public_key.
      rewrite (proj2 (field_bytes_ok (ikey (-2)) d x) HX). cbn [bind].
      rewrite (proj2 (field_bytes_ok (ikey (-3)) d y) HY). cbn [bind].
      rewrite (proj2 (parse_crv_ec2_ok d crv) (ex_intro _ v (conj HC HE))). cbn [bind].
      unfold curve_coordinate_byte_length. unfold coord_len in LX, LY. rewrite LX, LY, Nat.eqb_refl.
      cbn [negb orb check bind]. rewrite (proj2 (parse_key_base_ok d b) HB). reflexivity.
    + pose proof HB as ((v1 & L1 & E1) & _). apply kty_entry in E1.
      unfold dict_index, ikey. unfold label in L1. rewrite L1. cbn [bind]. rewrite E1.
      cbn [catch bind]. rewrite HK. unfold parse_okp_public_key.
      rewrite (proj2 (field_bytes_ok (ikey (-2)) d x) HX). cbn [bind].
      rewrite (proj2 (parse_crv_okp_ok d crv) (ex_intro _ v (conj HC HE))). cbn [bind].
      unfold curve_coordinate_byte_length. unfold coord_len in LX. rewrite LX, Nat.eqb_refl.
      cbn [check bind]. rewrite (proj2 (parse_key_base_ok d b) HB). reflexivity.
Qed.

(** ** Extensions *)

Lemma get_none name d : dict_get (skey name) d = VNone <-> absent_or_null name d.
Proof.
  unfold dict_get, absent_or_null, skey. destruct (dict_find _ d) as [v|].
  - split; [intros -> ? H; congruence|intro H; now apply H].
  - split; [intros _ ? H; discriminate|reflexivity].
Qed.
Lemma get_some name d v : v <> VNone -> dict_get (skey name) d = v <-> member name d v.
Proof.
  intro N. unfold dict_get, member, skey. destruct (dict_find _ d) as [x|]; split; congruence.
Qed.

Lemma opt_member_lift {A} name d (shape : A -> pyval -> Prop) (f : pyval -> res (option A)) o :
  (forall o, f VNone = Ok o <-> o = None) ->
  (forall v o, v <> VNone -> f v = Ok o <-> exists a, o = Some a /\ shape a v) ->
  (forall a, ~ shape a VNone) ->
  f (dict_get (skey name) d) = Ok o <-> opt_member name d shape o.
Proof.
  intros H0 H1 HS. destruct (is_none (dict_get (skey name) d)) eqn:E.
  - assert (EN : dict_get (skey name) d = VNone) by (destruct (dict_get _ _); discriminate || reflexivity).
    rewrite EN. rewrite H0. apply get_none in EN. destruct o as [a|]; cbn.
    + split; [discriminate|]. intros (v & M & S). rewrite (EN _ M) in S. elim (HS _ S).
    + split; [intro; exact EN|reflexivity].
  - assert (NN : dict_get (skey name) d <> VNone) by (intro X; rewrite X in E; discriminate).
    rewrite H1 by exact NN. destruct o as [a|]; cbn.
    + split.
      * intros (a' & X & S). injection X as <-. exists (dict_get (skey name) d). split; [|exact S].
        now apply get_some.
      * intros (v & M & S). exists a. split; [reflexivity|].
        assert (NV : v <> VNone) by (intros ->; elim (HS _ S)).
        apply (get_some name d v NV) in M. now rewrite M.
    + split.
      * intros (a & X & _); discriminate.
      * intro M. apply get_none in M. contradiction.
Qed.

Ltac opt_tac :=
  apply opt_member_lift;
  [ intro; cbn; split; congruence
  | let v := fresh "v" in let o := fresh "o" in let N := fresh "N" in
    intros v o N; destruct v; cbn; try congruence; split;
    first [ discriminate
          | intros (? & _ & Hx); discriminate Hx
          | (let H := fresh in intro H; injection H as <-; eexists; split; reflexivity)
          | intros (? & -> & Hx); unfold is_bool, is_str, is_bytes in Hx; congruence
          | idtac ]
  | intros ? Hx; discriminate Hx ].

Lemma ext_bool_ok name d o :
  ext_bool (dict_get (skey name) d) = Ok o <-> opt_member name d is_bool o.
Proof. opt_tac. Qed.
Lemma ext_str_ok name d o :
  ext_str (dict_get (skey name) d) = Ok o <-> opt_member name d is_str o.
Proof. opt_tac. Qed.
Lemma ext_bytes_ok name d o :
  ext_bytes (dict_get (skey name) d) = Ok o <-> opt_member name d is_bytes o.
Proof. opt_tac. Qed.

Lemma all_str_ok l r : all_str l = Ok r <-> l = map VStr r.
Proof.
  revert r; induction l as [|v t IH]; intro r; cbn [all_str].
  - split; [intro H; injection H as <-; reflexivity|destruct r; [reflexivity|discriminate]].
  - split.
    + intro H. destruct v; try discriminate. apply bind_ok in H as (r' & H1 & H).
      injection H as <-. apply IH in H1. cbn. congruence.
    + destruct r as [|s r]; [discriminate|]. cbn. intro H. injection H as -> ->.
      rewrite (proj2 (IH r) eq_refl). reflexivity.
Qed.
Lemma all_bytes_ok l r : all_bytes l = Ok r <-> l = map VBytes r.
Proof.
  revert r; induction l as [|v t IH]; intro r; cbn [all_bytes].
  - split; [intro H; injection H as <-; reflexivity|destruct r; [reflexivity|discriminate]].
  - split.
    + intro H. destruct v; try discriminate. apply bind_ok in H as (r' & H1 & H).
      injection H as <-. apply IH in H1. cbn. congruence.
    + destruct r as [|s r]; [discriminate|]. cbn. intro H. injection H as -> ->.
      rewrite (proj2 (IH r) eq_refl). reflexivity.
Qed.
Lemma all_int_ok l r : all_int l = Ok r <-> l = map VInt r.
Proof.
  revert r; induction l as [|v t IH]; intro r; cbn [all_int].
  - split; [intro H; injection H as <-; reflexivity|destruct r; [reflexivity|discriminate]].
  - split.
    + intro H. destruct v; try discriminate. apply bind_ok in H as (r' & H1 & H).
      injection H as <-. apply IH in H1. cbn. congruence.
    + destruct r as [|s r]; [discriminate|]. cbn. intro H. injection H as -> ->.
      rewrite (proj2 (IH r) eq_refl). reflexivity.
Qed.
Lemma all_int_lists_ok l r :
  all_int_lists l = Ok r <-> l = map (fun e => VList (map VInt e)) r.
Proof.
  revert r; induction l as [|v t IH]; intro r; cbn [all_int_lists].
  - split; [intro H; injection H as <-; reflexivity|destruct r; [reflexivity|discriminate]].
  - split.
    + intro H. destruct v; try discriminate. apply bind_ok in H as (x & H0 & H).
      apply bind_ok in H as (r' & H1 & H).
      injection H as <-. apply all_int_ok in H0. apply IH in H1. cbn. congruence.
    + destruct r as [|s r]; [discriminate|]. cbn. intro H. injection H as -> ->.
      rewrite (proj2 (all_int_ok _ s) eq_refl). cbn [bind].
      rewrite (proj2 (IH r) eq_refl). reflexivity.
Qed.

Lemma ext_exts_ok name d o :
  ext_exts (dict_get (skey name) d) = Ok o <-> opt_member name d (seq_of VStr) o.
Proof.
  apply opt_member_lift.
  - intro; cbn; split; congruence.
  - intros v o' N. unfold seq_of. destruct v; cbn; try congruence;
      try (split; [discriminate|intros (? & _ & [Hx|Hx]); discriminate Hx]);
      (split;
       [intro H; apply bind_ok in H as (r & H & E); injection E as <-; apply all_str_ok in H; subst;
        eexists; split; [reflexivity|auto]
       |intros (r & -> & [Hx|Hx]); try discriminate Hx; injection Hx as Hx;
        apply all_str_ok in Hx; rewrite Hx; reflexivity]).
  - intros a [Hx|Hx]; discriminate Hx.
Qed.
Lemma ext_uvm_ok name d o :
  ext_uvm (dict_get (skey name) d) = Ok o <-> opt_member name d uvm_shape o.
Proof.
  apply opt_member_lift.
  - intro; cbn; split; congruence.
  - intros v o' N. unfold uvm_shape. destruct v; cbn; try congruence;
      try (split; [discriminate|intros (? & _ & Hx); discriminate Hx]);
      (split;
       [intro H; apply bind_ok in H as (r & H & E); injection E as <-; apply all_int_lists_ok in H; subst;
        eexists; split; reflexivity
       |intros (r & -> & Hx); injection Hx as Hx;
        apply all_int_lists_ok in Hx; rewrite Hx; reflexivity]).
  - intros a Hx; discriminate Hx.
Qed.

Lemma value_or_null_get name d v : value_or_null name d v <-> v = dict_get (skey name) d.
Proof.
  unfold value_or_null, member, dict_get, skey. destruct (dict_find _ d) as [x|]; split.
  - intros [H|[H _]]; congruence.
  - intros ->; auto.
  - intros [H|[_ H]]; congruence.
  - intros ->; auto.
Qed.

Lemma number_type v : type_in v [TInt; TFloat] = true <-> is_number v.
Proof.
  rewrite type_in_spec. unfold is_number. split.
  - intros [H|[H|[]]]; destruct v; try discriminate; eauto.
  - intros [(z & ->)|(f & ->)]; cbn; auto.
Qed.

Lemma ext_loc_ok name d o :
  ext_loc W (dict_get (skey name) d) = Ok o <-> opt_member name d loc_shape o.
Proof.
  apply opt_member_lift.
  - intro; cbn; split; congruence.
  - intros v o' N. unfold loc_shape.
    destruct v; cbn [ext_loc]; try congruence;
      try (split; [discriminate|intros (? & _ & m & Hx & _); discriminate Hx]).
    split.
    + intro H. apply bind_ok in H as (? & H1 & H). apply bind_ok in H as (? & H2 & H).
      injection H as <-. apply check_ok in H1. unfold loc_keys in H2. apply check_keys_okb in H2.
      eexists. split; [reflexivity|]. exists d0. split; [reflexivity|]. split; [exact H2|].
      split.
      { intros k xv Hin. apply number_type. rewrite forallb_forall in H1. exact (H1 _ Hin). }
      cbn. rewrite !value_or_null_get. repeat split; reflexivity.
    + intros (c & -> & m & Hm & H2 & H1 & V1 & V2 & V3 & V4 & V5 & V6 & V7).
      injection Hm as <-. apply value_or_null_get in V1, V2, V3, V4, V5, V6, V7.
      replace (forallb _ d0) with true.
      2:{ symmetry. apply forallb_forall. intros [k x] Hin. apply number_type. exact (H1 _ _ Hin). }
      cbn [check bind]. unfold loc_keys. rewrite (proj2 (check_keys_ok _ _) H2). cbn [bind].
      destruct c; cbn in *. subst. reflexivity.
  - intros a (m & Hx & _); discriminate Hx.
Qed.

(** C35 *)
Lemma extensions_iff d x : parse_extensions W d = Ok x <-> ExtMap d x.
Proof.
  unfold parse_extensions, ExtMap, supported_extensions. split.
  - intro H.
    apply bind_ok in H as (? & H0 & H). apply check_keys_okb in H0.
    apply bind_ok in H as (x1 & H1 & H). apply bind_ok in H as (x2 & H2 & H).
    apply bind_ok in H as (x3 & H3 & H). apply bind_ok in H as (x4 & H4 & H).
    apply bind_ok in H as (x5 & H5 & H). apply bind_ok in H as (x6 & H6 & H).
    apply bind_ok in H as (x7 & H7 & H). apply bind_ok in H as (x8 & H8 & H).
    apply bind_ok in H as (x9 & H9 & H). injection H as <-. cbn.
    apply ext_bool_ok in H1, H4, H9. apply ext_str_ok in H2. apply ext_bytes_ok in H3, H6.
    apply ext_exts_ok in H5. apply ext_loc_ok in H7. apply ext_uvm_ok in H8.
    repeat (split; [assumption|]). assumption.
  - intros (H0 & H1 & H2 & H3 & H4 & H5 & H6 & H7 & H8 & H9).
    rewrite (proj2 (check_keys_ok _ _) H0). cbn [bind].
    apply ext_bool_ok in H1, H4, H9. apply ext_str_ok in H2. apply ext_bytes_ok in H3, H6.
    apply ext_exts_ok in H5. apply ext_loc_ok in H7. apply ext_uvm_ok in H8.
    rewrite H1; cbn [bind]; rewrite H2; cbn [bind]; rewrite H3; cbn [bind]; rewrite H4; cbn [bind].
    rewrite H5; cbn [bind]; rewrite H6; cbn [bind]; rewrite H7; cbn [bind]; rewrite H8; cbn [bind].
    rewrite H9; cbn [bind]. destruct x; reflexivity.
Qed.

(** ** Statements *)

Lemma x5c_ok d l : parse_x5c d = Ok l <-> stmt_x5c d l.
Proof.
  unfold parse_x5c, stmt_x5c, seq_of. rewrite bind_ok. split.
  - intros (v & H1 & H). apply field_required in H1 as (H1 & _ & _).
    apply bind_ok in H as (s & HS & H). apply all_bytes_ok in H. exists v. split; [exact H1|].
    destruct v; try discriminate; injection HS as ->; subst; auto.
  - intros (v & H1 & H). exists v. split.
    + apply field_required. destruct H as [-> | ->]; (repeat split; [exact H1|discriminate|cbn; auto]).
    + destruct H as [-> | ->]; cbn [as_seq bind]; now apply all_bytes_ok.
Qed.

Lemma mem_only name names d :
  only_members names d -> (forall n, In n names -> lit n <> lit name) ->
  dict_mem (skey name) d = false.
Proof.
  intros HO HN. unfold dict_mem. destruct (dict_find (skey name) d) as [v|] eqn:E; [|reflexivity].
  apply dict_find_in in E as (k & Hin & E). apply HO in Hin as (n & Hn & ->).
  apply py_eq_str in E. unfold skey in E. injection E as E. elim (HN _ Hn E).
Qed.

Lemma mem_member name d v : member name d v -> dict_mem (skey name) d = true.
Proof. unfold member, dict_mem, skey. now intros ->. Qed.

Ltac not_listed := let n := fresh "n" in let Hn := fresh "Hn" in
  intros n Hn; cbn [In] in Hn;
  repeat (destruct Hn as [<-|Hn]; [let X := fresh "X" in intro X; discriminate X|]);
  contradiction.

Ltac step H :=
  lazymatch type of H with
  | bind _ _ = Ok _ => let x := fresh "x" in let Hx := fresh "Hx" in
      apply bind_ok in H; destruct H as (x & Hx & H)
  end.
Ltac clean := repeat match goal with
  | H : parse_stmt_alg W _ = Ok _ |- _ => apply parse_stmt_alg_ok in H
  | H : field_bytes _ _ = Ok _ |- _ => apply field_bytes_ok in H
  | H : field_str _ _ = Ok _ |- _ => apply field_str_ok in H
  | H : parse_x5c _ = Ok _ |- _ => apply x5c_ok in H
  | H : check_unsupported_keys W _ _ = Ok _ |- _ => apply check_keys_okb in H
  end.
Ltac put := repeat match goal with
  | H : stmt_alg ?d ?a |- context [parse_stmt_alg W ?d] =>
      rewrite (proj2 (parse_stmt_alg_ok d a) H); cbn [bind]
  | H : stmt_x5c ?d ?a |- context [parse_x5c ?d] =>
      rewrite (proj2 (x5c_ok d a) H); cbn [bind]
  | H : member ?n ?d (VBytes ?b) |- context [field_bytes (skey ?n) ?d] =>
      rewrite (proj2 (field_bytes_ok (skey n) d b) H); cbn [bind]
  | H : member ?n ?d (VStr ?b) |- context [field_str (skey ?n) ?d] =>
      rewrite (proj2 (field_str_ok (skey n) d b) H); cbn [bind]
  | H : only_members ?l ?d |- context [check_unsupported_keys W (map lit ?l) ?d] =>
      rewrite (proj2 (check_keys_ok l d) H); cbn [bind]
  end.

Lemma x5c_mem d l : stmt_x5c d l -> dict_mem (skey "x5c") d = true.
Proof. intros (v & H & _). exact (mem_member _ _ _ H). Qed.

(** C34 *)
Lemma statement_iff f d st : statement_parser W f d = Ok st <-> StmtMap d f st.
Proof.
  split.
  - intro H. destruct f; cbn [statement_parser] in H.
    + unfold parse_packed_attestation_statement in H. step H. step H.
      destruct (dict_mem (skey "x5c") d);
        [|destruct (dict_mem (skey "ecdaaKeyId") d)]; repeat step H; injection H as <-; clean;
        econstructor; eassumption.
    + unfold parse_tpm_attestation_statement in H. step H. step H. step H. step H. step H.
      destruct (dict_mem (skey "x5c") d);
        [|destruct (dict_mem (skey "ecdaaKeyId") d)]; repeat step H; injection H as <-; clean;
        econstructor; eassumption.
    + unfold parse_android_key_attestation_statement in H. repeat step H; injection H as <-; clean.
      econstructor; eassumption.
    + unfold parse_android_safetynet_attestation_statement in H.
      repeat step H; injection H as <-; clean. econstructor; eassumption.
    + unfold parse_fido_u2f_attestation_statement in H.
      repeat step H; injection H as <-; clean. econstructor; eassumption.
    + unfold parse_none_attestation_statement in H. step H. injection H as <-.
      change (@nil pystr) with (map lit []) in Hx. apply check_keys_okb in Hx.
      constructor. destruct d as [|[k v] t]; [reflexivity|].
      destruct (Hx k v (or_introl eq_refl)) as (? & [] & _).
  - intro H. inversion H; subst; cbn [statement_parser];
      unfold parse_packed_attestation_statement, parse_tpm_attestation_statement,
        parse_android_key_attestation_statement, parse_android_safetynet_attestation_statement,
        parse_fido_u2f_attestation_statement, parse_none_attestation_statement.
    + put. erewrite (mem_only "x5c") by (eassumption || not_listed).
      erewrite (mem_only "ecdaaKeyId") by (eassumption || not_listed). put. reflexivity.
    + put. erewrite x5c_mem by eassumption. put. reflexivity.
    + put. erewrite (mem_only "x5c") by (eassumption || not_listed).
      erewrite (mem_member "ecdaaKeyId") by eassumption. put. reflexivity.
    + put. erewrite (mem_only "x5c") by (eassumption || not_listed).
      erewrite (mem_only "ecdaaKeyId") by (eassumption || not_listed). put. reflexivity.
    + put. erewrite x5c_mem by eassumption. put. reflexivity.
    + put. erewrite (mem_only "x5c") by (eassumption || not_listed).
      erewrite (mem_member "ecdaaKeyId") by eassumption. put. reflexivity.
    + put. reflexivity.
    + put. reflexivity.
    + put. reflexivity.
    + reflexivity.
Qed.

(** ** Credentials *)

Lemma b64_field name d b :
  (s <- field_str (skey name) d ;; bytes_from_base64 s) = Ok b <-> b64_member name d b.
Proof.
  unfold b64_member. rewrite bind_ok. split.
  - intros (s & H1 & H2). apply field_str_ok in H1. apply catch_ok in H2. eauto.
  - intros (s & H1 & H2). exists s. split; [now apply field_str_ok|now apply catch_ok].
Qed.

Lemma b64_step name d b s : field_str (skey name) d = Ok s -> bytes_from_base64 s = Ok b ->
  b64_member name d b.
Proof. intros H1 H2. apply b64_field. rewrite H1. exact H2. Qed.

Lemma b64_some s b : b64decode s = Ok b -> bytes_from_base64 s = Ok b.
Proof. intro H. now apply catch_ok. Qed.

(** C37 *)
Lemma credential_iff d c : parse_public_key_credential W d = Ok c <-> CredentialMap d c.
Proof.
  unfold parse_public_key_credential, CredentialMap. split.
  - intro H. step H. step H. step H. step H. step H. step H. step H. step H.
    apply check_keys_okb in Hx. apply field_str_ok in Hx0, Hx1. apply field_dict_ok in Hx4.
    pose proof (b64_step _ _ _ _ Hx2 Hx3). pose proof (b64_step _ _ _ _ Hx5 Hx6).
    destruct (dict_mem (skey "attestationObject") x4) eqn:M.
    + repeat step H. injection H as <-. cbn. apply check_keys_okb in Hx7.
      repeat (split; [assumption|]). exists x4. split; [assumption|].
      constructor; try assumption. eapply b64_step; eassumption.
    + repeat step H. injection H as <-. cbn. apply check_keys_okb in Hx7.
      repeat (split; [assumption|]). exists x4. split; [assumption|].
      constructor; try assumption; try (eapply b64_step; eassumption).
      apply field_opt_str_ok in Hx12. destruct x12 as [s|].
      * step Hx13. injection Hx13 as <-. exists s. split; [exact Hx12|]. now apply catch_ok in Hx14.
      * injection Hx13 as <-. exact Hx12.
  - intros (H0 & H1 & H2 & (sr & H3 & H3') & r & H4 & H5).
    put. rewrite (b64_some _ _ H3'). cbn [bind].
    rewrite (proj2 (field_dict_ok (skey "response") d r) H4). cbn [bind].
    destruct c as [cid ct craw cresp]; cbn [cr_id cr_type cr_raw_id cr_response] in *.
    inversion H5 as [c a O1 (s1 & A1 & B1) (s2 & A2 & B2)
                    |c a s u O1 (s1 & A1 & B1) (s2 & A2 & B2) (s3 & A3 & B3) HU]; subst.
    + put. rewrite (b64_some _ _ B1). cbn [bind].
      rewrite (mem_member _ _ _ A2). put. rewrite (b64_some _ _ B2). reflexivity.
    + put. rewrite (b64_some _ _ B1). cbn [bind].
      erewrite (mem_only "attestationObject") by (eassumption || not_listed).
      put. rewrite (b64_some _ _ B2). cbn [bind].
      rewrite (b64_some _ _ B3). cbn [bind].
      destruct u as [b|]; cbn [opt_b64_member] in HU.
      * destruct HU as (s4 & A4 & B4).
        rewrite (proj2 (field_opt_str_ok (skey "userHandle") r (Some s4)) A4). cbn [bind].
        rewrite (b64_some _ _ B4). reflexivity.
      * rewrite (proj2 (field_opt_str_ok (skey "userHandle") r None) HU). reflexivity.
Qed.

(** ** Presence of extension outputs *)
Lemma opt_member_present {A} name d (shape : A -> pyval -> Prop) o :
  (forall a, ~ shape a VNone) -> opt_member name d shape o ->
  (o <> None <-> exists v, member name d v /\ v <> VNone).
Proof.
  intros HS H. destruct o as [a|]; cbn in H.
  - destruct H as (v & M & Sv). split; [intros _|discriminate].
    exists v. split; [exact M|]. intros ->. elim (HS _ Sv).
  - split; [congruence|]. intros (v & M & N). elim (N (H _ M)).
Qed.

End WithWorld.
