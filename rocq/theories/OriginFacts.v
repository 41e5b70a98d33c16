(** * OriginFacts: the exceptions of parse_origin against CeremonySpec. *)
From Coq Require Import List NArith ZArith Bool Lia ZifyBool ZifyNat ZifyN String.
From Verif Require Import Base BaseFacts Url CodecSpec UrlFacts CeremonySpec.
Import ListNotations.
Local Open Scope list_scope.
Local Open Scope N_scope.

Local Ltac cg := unfold pystr in *; congruence.

Lemma alpha_letter c : is_alpha c = true <-> letter c.
Proof. unfold is_alpha, letter. lia. Qed.
Lemma scheme_char_spec c : scheme_char c = true <-> letter c \/ is_09 c \/ In c (lit "+-.").
Proof.
  unfold scheme_char, is_digit, is_09. rewrite !orb_true_iff, alpha_letter.
  change (lit "+-.") with [43; 45; 46]. cbn [In]. rewrite andb_true_iff, !N.leb_le, !N.eqb_eq.
  intuition.
Qed.

Lemma scheme_some sch : (match sch with c :: _ => is_alpha c && forallb scheme_char sch | [] => false end = true)
  <-> SchemeName sch.
Proof.
  unfold SchemeName. destruct sch as [|c t].
  - split; [discriminate|]. intros (c & t & E & _). discriminate.
  - cbn [forallb]. rewrite !andb_true_iff, alpha_letter, scheme_char_spec, forallb_forall. split.
    + intros (H1 & _ & H2). exists c, t. split; [reflexivity|]. split; [assumption|].
      apply Forall_forall. intros x Hx. apply scheme_char_spec. auto.
    + intros (c' & t' & E & H1 & H2). injection E as <- <-. repeat split; auto.
      intros x Hx. apply scheme_char_spec. rewrite Forall_forall in H2. auto.
Qed.

Lemma delim_spec c : netloc_delim c = true <-> In c (lit "/?#").
Proof.
  unfold netloc_delim. change (lit "/?#") with [47; 63; 35]. cbn [In].
  rewrite !orb_true_iff, !N.eqb_eq. intuition.
Qed.

(** The authority urlsplit finds. *)
Lemma authority_spec t auth :
  (exists sch rest tail, split_scheme t = (sch, 47 :: 47 :: rest) /\ split_netloc rest = (auth, tail))
  <-> Authority t auth.
Proof.
  unfold Authority. change (lit "//") with [47; 47]. change (lit ":") with [58]. split.
  - intros (sch & rest & tail & SS & SN). apply split_netloc_spec in SN as (-> & ND & HT).
    rewrite no_delim in ND.
    assert (TT : tail = [] \/ exists c r, tail = c :: r /\ In c (lit "/?#")).
    { destruct tail as [|c r]; [auto|]. right. exists c, r. split; [reflexivity|]. now apply delim_spec. }
    unfold split_scheme in SS. destruct (partition 58 t) as [[sc r]|] eqn:P.
    + pose proof (scheme_some sc) as Q. destruct sc as [|c sc].
      * exists [], tail. assert (t = 47 :: 47 :: auth ++ tail) by cg. subst t. auto.
      * destruct (is_alpha c && forallb scheme_char (c :: sc)).
        -- apply partition_some in P as [-> _]. assert (r = 47 :: 47 :: auth ++ tail) by cg. subst r.
           exists ((c :: sc) ++ [58]), tail. rewrite <- app_assoc. split; [reflexivity|].
           split; [right; exists (c :: sc); split; [reflexivity|now apply Q]|auto].
        -- exists [], tail. assert (t = 47 :: 47 :: auth ++ tail) by cg. subst t. auto.
    + exists [], tail. assert (t = 47 :: 47 :: auth ++ tail) by cg. subst t. auto.
  - intros (head & tail & -> & HH & ND & HT).
    assert (SN : split_netloc (auth ++ tail) = (auth, tail)).
    { apply split_netloc_spec. split; [reflexivity|]. split; [now apply no_delim|].
      destruct HT as [->|(c & r & -> & HT)]; [exact I|]. now apply delim_spec. }
    destruct HH as [->|(sch & -> & HS)].
    + exists [], (auth ++ tail), tail. split; [|assumption]. unfold split_scheme.
      cbn [app]. destruct (partition 58 (47 :: 47 :: auth ++ tail)) as [[sc r]|] eqn:P; [|reflexivity].
      apply partition_some in P as [P _]. destruct sc as [|c sc]; [reflexivity|].
      cbn [app] in P. injection P as <- _. reflexivity.
    + exists (map to_lower sch), (auth ++ tail), tail. split; [|assumption].
      rewrite <- app_assoc. cbn [app]. unfold split_scheme.
      assert (P : partition 58 (sch ++ 58 :: 47 :: 47 :: auth ++ tail) = Some (sch, 47 :: 47 :: auth ++ tail)).
      { apply partition_some. split; [reflexivity|]. intro I.
        destruct HS as (c & sc & -> & H1 & H2). destruct I as [->|I]; [unfold letter in H1; lia|].
        rewrite Forall_forall in H2. destruct (H2 _ I) as [H|[H|H]].
        - unfold letter in H. lia.
        - unfold is_09 in H. lia.
        - change (lit "+-.") with [43; 45; 46] in H. cbn in H. lia. }
      rewrite P. apply scheme_some in HS. destruct sch; [discriminate|]. now rewrite HS.
Qed.

Section WithEnv.
Variable UE : urlenv.

Lemma cleaned_fun s t t' : Cleaned s t -> Cleaned s t' -> t = t'.
Proof. rewrite <- !cleaned_spec. congruence. Qed.

(** urlparse raises for a bad authority only. *)
Lemma urlparse_bad s : (exists e, urlparse UE s = Raise e) <-> BadAuthority UE s.
Proof.
  unfold BadAuthority. split.
  - intros (e & H). unfold urlparse in H.
    destruct (split_scheme (remove_unsafe (lstrip_c0 s))) as [sch url] eqn:SS.
    apply bind_raise in H as [H|([netloc url'] & HN & H)].
    + repeat match type of H with
             | (match ?x with _ => _ end) = _ => is_var x; destruct x; try discriminate
             end.
      destruct (split_netloc url) as [n r] eqn:SN.
      exists (remove_unsafe (lstrip_c0 s)), n. split; [now apply cleaned_spec|].
      split; [apply authority_spec; eauto|].
      intros [B _]. apply brackets_spec in B. unfold brackets_check in B. apply andb_true_iff in B as [B1 B2].
      rewrite B1 in H. cbn [check bind] in H. destruct (mem 91 n && mem 93 n); [|discriminate].
      rewrite B2 in H. discriminate.
    + destruct (split1 35 url') as [u1 fr]. destruct (split1 63 u1) as [u2 qu].
      apply bind_raise in H as [H|(? & _ & H)].
      2:{ destruct (if existsb (str_eqb sch) uses_params && mem 59 u2 then split_params u2 else (u2, []));
          discriminate. }
      apply check_raise in H as [H _].
      assert (Q : (exists rest, url = 47 :: 47 :: rest /\ split_netloc rest = (netloc, url')) \/ netloc = []).
      { repeat match type of HN with
               | (match ?x with _ => _ end) = _ => is_var x; destruct x; try (injection HN as <- <-; now right)
               end.
        left. destruct (split_netloc url) as [n r] eqn:SN.
        apply bind_ok in HN as ([] & C1 & HN).
        apply bind_ok in HN as ([] & C2 & HN). injection HN as <- <-. eauto. }
      destruct Q as [(rest & -> & SN)| ->]; [|discriminate].
      exists (remove_unsafe (lstrip_c0 s)), netloc. split; [now apply cleaned_spec|].
      split; [apply authority_spec; eauto|]. intros [_ B]. apply nfkc_spec in B. congruence.
  - intros (t & auth & HC & HA & NB). apply cleaned_spec in HC. subst t.
    apply authority_spec in HA as (sch & rest & tail & SS & SN).
    unfold urlparse. rewrite SS, SN.
    destruct (Bool.eqb (mem 91 auth) (mem 93 auth)) eqn:B1; [|eexists; reflexivity].
    cbn [check bind].
    match goal with |- exists e, bind (bind ?r _) _ = _ => destruct r as [[]|e] eqn:B2 end;
      [|eexists; reflexivity].
    cbn [bind]. destruct (split1 35 tail) as [u1 fr]. destruct (split1 63 u1) as [u2 qu].
    destruct (forallb (fun c => c <? 128) auth || ue_nfkc_ok UE auth) eqn:K; [|eexists; reflexivity].
    exfalso. apply NB. split; [|now apply nfkc_spec]. apply brackets_spec. unfold brackets_check.
    rewrite B1. cbn [andb]. destruct (mem 91 auth && mem 93 auth); [|reflexivity].
    now apply check_ok in B2.
Qed.

Lemma urlparse_raise s e : urlparse UE s = Raise e -> e = Py EValueError.
Proof.
  unfold urlparse. destruct (split_scheme _) as [sch url]. intro H.
  apply bind_raise in H as [H|([netloc url'] & HN & H)].
  - repeat match type of H with
           | (match ?x with _ => _ end) = _ => is_var x; destruct x; try discriminate
           end.
    destruct (split_netloc url) as [n r].
    apply bind_raise in H as [H|(? & _ & H)]; [now apply check_raise in H|].
    apply bind_raise in H as [H|(? & _ & H)]; [|discriminate].
    destruct (mem 91 n && mem 93 n); [now apply check_raise in H|discriminate].
  - destruct (split1 35 url') as [u1 fr]. destruct (split1 63 u1) as [u2 qu].
    apply bind_raise in H as [H|(? & _ & H)]; [now apply check_raise in H|].
    destruct (if existsb (str_eqb sch) uses_params && mem 59 u2 then split_params u2 else (u2, []));
      discriminate.
Qed.

(** The checks of parse_origin before the port. *)
Lemma shape_spec s name auth : ~ BadAuthority UE s ->
  OriginShape s name auth <->
  In name ["http"; "https"]%string /\ auth <> [] /\
  exists u, urlparse UE s = Ok u /\ up_scheme u = lit name /\ up_netloc u = auth /\
    no_extras u = true.
Proof.
  intro NB. unfold OriginShape. split.
  - intros (sch & tail & CL & HI & HS & NE & ND & HT). split; [assumption|]. split; [assumption|].
    apply origin_parts; [assumption|assumption|].
    assert (TD : match tail with [] => True | c :: _ => netloc_delim c = true end)
      by (destruct HT as [<-|[<-|[<-|[<-|[]]]]]; reflexivity || exact I).
    assert (SS : split_scheme (remove_unsafe (lstrip_c0 s)) = (lit name, 47 :: 47 :: auth ++ tail)).
    { apply split_scheme_spec; [assumption|]. exists sch. split; [now apply cleaned_spec in CL|assumption]. }
    assert (SN : split_netloc (auth ++ tail) = (auth, tail)).
    { apply split_netloc_spec. split; [reflexivity|]. split; [now apply no_delim|assumption]. }
    exists (auth ++ tail), tail. split; [assumption|]. split; [assumption|].
    assert (B : brackets_check UE auth = true /\ forallb (fun c => c <? 128) auth || ue_nfkc_ok UE auth = true).
    { destruct (brackets_check UE auth) eqn:B1; [destruct (forallb (fun c => c <? 128) auth || ue_nfkc_ok UE auth) eqn:B2; auto|];
        exfalso; apply NB; exists (remove_unsafe (lstrip_c0 s)), auth; (split; [now apply cleaned_spec|]);
        (split; [apply authority_spec; eauto|]); intros [Q1 Q2]; [apply nfkc_spec in Q2|apply brackets_spec in Q1]; congruence. }
    destruct B as [B1 B2]. split; [assumption|]. split; [assumption|]. now apply tail_ok_spec.
  - intros (HI & NE & H). apply origin_parts in H as (rest & tail & SS & SN & _ & _ & TO); [|assumption|assumption].
    apply split_scheme_spec in SS as (sch & EU & HS); [|assumption].
    apply split_netloc_spec in SN as (-> & ND & HT).
    exists sch, tail. split; [apply cleaned_spec; exact EU|].
    split; [assumption|]. split; [assumption|]. split; [assumption|].
    split; [now apply no_delim|]. now apply (tail_ok_spec true).
Qed.

Lemma no_port auth dflt : (forall port, ~ AuthorityPort auth dflt port) <->
  url_port auth = Raise (Py EValueError).
Proof.
  split.
  - intro H. destruct (url_port auth) as [p|e] eqn:E.
    + exfalso. apply (H match p with None => dflt | Some n => n end). apply url_port_spec. eauto.
    + unfold url_port in E. destruct (port_text auth); [discriminate|].
      destruct (forallb is_digit _); [destruct (_ <=? _)|]; congruence.
  - intros H port P. apply url_port_spec in P as (p & P & _). congruence.
Qed.

Lemma origin_fails_iff s e : parse_origin UE s = Raise e <-> OriginFails UE s e.
Proof.
  unfold parse_origin. split.
  - intro H. apply bind_raise in H as [H|(? & HC & H)].
    { apply check_raise in H as [H ->]. apply of_mark. rewrite <- contains_spec. congruence. }
    apply check_ok in HC. apply contains_spec in HC.
    apply bind_raise in H as [H|(u & HU & H)].
    { pose proof (urlparse_raise _ _ H). subst e. apply of_authority; [assumption|].
      apply urlparse_bad. eauto. }
    assert (NB : ~ BadAuthority UE s) by (rewrite <- urlparse_bad; intros (? & X); congruence).
    assert (NS : forall name auth, OriginShape s name auth ->
      In name ["http"; "https"]%string /\ auth <> [] /\ up_scheme u = lit name /\ up_netloc u = auth /\
      no_extras u = true).
    { intros name auth P. apply shape_spec in P as (P1 & P2 & u' & P3 & P4 & P5 & P6); [|assumption].
      assert (u' = u) by congruence. subst u'. auto. }
    apply bind_raise in H as [H|(? & H1 & H)].
    { apply check_raise in H as [H ->]. apply of_shape; [assumption|assumption|].
      intros name auth P. apply NS in P as (_ & _ & _ & _ & P). unfold no_extras in P. congruence. }
    apply bind_raise in H as [H|(? & H2 & H)].
    { apply check_raise in H as [H ->]. apply of_shape; [assumption|assumption|].
      intros name auth P. apply NS in P as (_ & P & _ & P' & _). rewrite P' in H.
      destruct auth; [cg|discriminate]. }
    apply bind_raise in H as [H|(? & H3 & H)].
    { apply check_raise in H as [H ->]. apply of_shape; [assumption|assumption|].
      intros name auth P. apply NS in P as (P1 & _ & P2 & _). 
      rewrite (proj2 (scheme_name (up_scheme u))) in H by eauto. discriminate. }
    apply bind_raise in H as [H|(? & _ & H)]; [|discriminate].
    apply check_ok in H1, H2, H3. apply scheme_name in H3 as (name & HI & ES).
    assert (e = Py EValueError).
    { unfold url_port in H. destruct (port_text _); [discriminate|].
      destruct (forallb is_digit _); [destruct (_ <=? _)|]; congruence. }
    subst e. apply of_port with (name := name) (auth := up_netloc u); [assumption|assumption| |].
    + apply shape_spec; [assumption|]. split; [assumption|].
      split; [destruct (up_netloc u); cg|]. exists u. auto.
    + now apply no_port.
  - intro H. destruct H as [HC|HC HB|HC NB NS|name auth HC NB HS HP]; rewrite <- contains_spec in HC.
    + destruct (contains (lit "://") s); [elim HC; reflexivity|reflexivity].
    + rewrite HC. cbn [check bind]. apply urlparse_bad in HB as (e & HB). rewrite HB. cbn [bind].
      f_equal. now apply urlparse_raise in HB.
    + rewrite HC. cbn [check bind]. destruct (urlparse UE s) as [u|e] eqn:HU;
        [|elim NB; apply urlparse_bad; eauto].
      cbn [bind]. fold (no_extras u). destruct (no_extras u) eqn:E1; [|reflexivity]. cbn [check bind].
      destruct (up_netloc u) as [|c auth] eqn:E2; [reflexivity|]. cbn [check bind].
      destruct (str_eqb (up_scheme u) (lit "http") || str_eqb (up_scheme u) (lit "https")) eqn:E3;
        [|reflexivity].
      apply scheme_name in E3 as (name & HI & ES). elim (NS name (c :: auth)).
      apply shape_spec; [assumption|]. split; [assumption|]. split; [discriminate|]. exists u. auto.
    + rewrite HC. cbn [check bind]. apply shape_spec in HS as (HI & NE & u & HU & ES & EA & EX); [|assumption].
      rewrite HU. cbn [bind]. fold (no_extras u). rewrite EX. cbn [check bind]. rewrite EA.
      destruct auth as [|c auth]; [cg|]. cbn [check bind].
      rewrite (proj2 (scheme_name (up_scheme u))) by eauto. cbn [check bind].
      apply no_port in HP. now rewrite HP.
Qed.

End WithEnv.
