(** * UrlFacts: parse_origin against CodecSpec. *)
From Coq Require Import List NArith ZArith Bool Lia ZifyBool ZifyNat ZifyN String.
From Verif Require Import Base BaseFacts Url CodecSpec.
Import ListNotations.
Local Open Scope list_scope.
Local Open Scope N_scope.

Local Ltac cg := unfold pystr in *; congruence.

(** ** Splitting *)

Lemma mem_spec c s : mem c s = true <-> In c s.
Proof.
  unfold mem. rewrite existsb_exists. split.
  - intros (x & H & E). apply N.eqb_eq in E. now subst.
  - intro H. exists c. split; [assumption|apply N.eqb_refl].
Qed.
Lemma mem_false c s : mem c s = false <-> ~ In c s.
Proof. rewrite <- mem_spec. destruct (mem c s); split; cg. Qed.

Lemma partition_some c s a b : partition c s = Some (a, b) <-> first_split c s a b.
Proof.
  unfold first_split. revert a b. induction s as [|x s IH]; intros a b; cbn [partition].
  - split; [discriminate|]. intros [H _]. destruct a; discriminate.
  - destruct (N.eqb_spec x c) as [->|N].
    + split.
      * intro H. injection H as <- <-. split; [reflexivity|intros []].
      * intros [H1 H2]. destruct a as [|y a]; [cbn in H1; injection H1 as ->; reflexivity|].
        cbn in H1. injection H1 as <- _. elim H2. now left.
    + destruct (partition c s) as [[a' b']|].
      * split.
        -- intro H. injection H as <- <-. destruct (proj1 (IH a' b') eq_refl) as [-> H].
           split; [reflexivity|]. intros [->|I]; cg.
        -- intros [H1 H2]. destruct a as [|y a]; cbn in H1; injection H1; [cg|].
           intros H3 <-. assert (E : Some (a', b') = Some (a, b)).
           { apply IH. split; [assumption|]. intro; apply H2; now right. }
           injection E as -> ->. reflexivity.
      * split; [discriminate|]. intros [H1 H2]. destruct a as [|y a]; cbn in H1; injection H1; [cg|].
        intros H3 <-. assert (E : None = Some (a, b)).
        { apply IH. split; [assumption|]. intro; apply H2; now right. }
        discriminate.
Qed.
Lemma partition_none c s : partition c s = None <-> ~ In c s.
Proof.
  induction s as [|x s IH]; cbn [partition].
  - split; [intros _ []|reflexivity].
  - destruct (N.eqb_spec x c) as [->|N].
    + split; [discriminate|]. intro H. elim H. now left.
    + destruct (partition c s) as [[a b]|].
      * split; [discriminate|]. intro H. destruct IH as [_ IH].
        assert (F : Some (a, b) = None) by (apply IH; intro; apply H; now right). discriminate F.
      * split; [|reflexivity]. intros _ [->|I]; [cg|]. now apply IH.
Qed.

Lemma after_last_spec c s r : after_last c s = r <->
  (~ In c s /\ r = s) \/ (exists u, s = u ++ c :: r /\ ~ In c r).
Proof.
  assert (F : forall s, (~ In c s /\ after_last c s = s) \/
                        (exists u, s = u ++ c :: after_last c s /\ ~ In c (after_last c s))).
  { clear. induction s as [|x s IH]; cbn [after_last].
    - left. split; [intros []|reflexivity].
    - destruct (mem c s) eqn:M.
      + apply mem_spec in M. destruct IH as [[N _]|(u & E & N)]; [contradiction|].
        right. exists (x :: u). split; [cbn; cg|assumption].
      + apply mem_false in M. destruct (N.eqb_spec x c) as [->|D].
        * right. exists []. split; [reflexivity|assumption].
        * left. split; [intros [E|E]; cg|reflexivity]. }
  assert (D : forall u u' r r', u ++ c :: r = u' ++ c :: r' -> ~ In c r -> ~ In c r' -> r = r').
  { clear. induction u as [|x u IH]; intros [|x' u'] r r' E N N'; cbn in E; injection E; intros.
    - assumption.
    - subst. elim N. rewrite in_app_iff. right. now left.
    - subst. elim N'. rewrite in_app_iff. right. now left.
    - eapply IH; eauto. }
  split.
  - intros <-. destruct (F s) as [[H1 H2]|H]; [left; split; [assumption|cg]|right; assumption].
  - destruct (F s) as [[H1 H2]|(u & H1 & H2)]; intros [[H3 H4]|(u' & H3 & H4)].
    + cg.
    + elim H1. rewrite H3, in_app_iff. right. now left.
    + elim H3. rewrite H1, in_app_iff. right. now left.
    + exact (D _ _ _ _ (eq_trans (eq_sym H1) H3) H2 H4).
Qed.

Lemma snd_split1 s p : snd (split1 58 s) = p <-> after_colon s p.
Proof.
  unfold split1, after_colon. destruct (partition 58 s) as [[a b]|] eqn:E; cbn [snd].
  - pose proof E as E'. apply partition_some in E. split.
    + intros <-. right. now exists a.
    + intros [[H _]|(a' & H)].
      * elim H. destruct E as [-> _]. rewrite in_app_iff. right. now left.
      * apply partition_some in H. cg.
  - pose proof E as E'. apply partition_none in E. split.
    + intros <-. now left.
    + intros [[_ ->]|(a' & H)]; [reflexivity|]. apply partition_some in H. cg.
Qed.

Lemma port_text_spec auth p :
  port_text auth = p <-> exists hi, HostInfo auth hi /\ PortText hi p.
Proof.
  unfold port_text, HostInfo.
  assert (G : forall hi, match partition 91 hi with
    | Some (_, bracketed) => snd (split1 58 (snd (split1 93 bracketed)))
    | None => snd (split1 58 hi) end = p <-> PortText hi p).
  { intro hi. destruct (partition 91 hi) as [[a b]|] eqn:E.
    - pose proof E as E'. apply partition_some in E. split.
      + intro H. destruct (partition 93 b) as [[c r]|] eqn:F; unfold split1 in H at 2;
          rewrite F in H; cbn [snd] in H.
        * apply partition_some in F. apply snd_split1 in H. eapply pt_bracket; eauto.
        * apply partition_none in F. cbn in H. subst p. eapply pt_open; eauto.
      + intros [p' H|a' b' H1 H2|a' b' c r p' H1 H2 H3].
        * destruct E as [-> _]. elim H. rewrite in_app_iff. right. now left.
        * apply partition_some in H1. rewrite H1 in E'. injection E' as -> ->.
          apply partition_none in H2. unfold split1 at 2. now rewrite H2.
        * apply partition_some in H1. rewrite H1 in E'. injection E' as -> ->.
          apply partition_some in H2. unfold split1 at 2. rewrite H2. cbn [snd]. now apply snd_split1.
    - pose proof E as E'. apply partition_none in E. rewrite snd_split1. split.
      + now apply pt_plain.
      + intros [p' H H'|a' b' H1 H2|a' b' c r p' H1 H2 H3]; [assumption| |];
          apply partition_some in H1; cg. }
  rewrite G. split.
  - intro H. exists (after_last 64 auth). split; [|assumption]. now apply after_last_spec.
  - intros (hi & H1 & H2). apply after_last_spec in H1. now rewrite H1.
Qed.

(** ** Ports *)

Lemma dec_value_snoc s c : dec_value (s ++ [c]) = dec_value s * 10 + (c - 48).
Proof. unfold dec_value. now rewrite fold_left_app. Qed.

Lemma decimal_spec s n :
  decimal s n <-> s <> [] /\ forallb is_digit s = true /\ dec_value s = n.
Proof.
  split.
  - induction 1 as [c H|s n c H IH Hc].
    + split; [discriminate|]. unfold is_09 in H. cbn [forallb]. unfold dec_value. cbn [fold_left].
      unfold is_digit. split; lia.
    + destruct IH as (I1 & I2 & I3). split; [destruct s; discriminate|].
      rewrite forallb_app, I2, dec_value_snoc, I3. cbn [forallb andb].
      unfold is_digit, is_09 in *. split; [lia|reflexivity].
  - intros (H1 & H2 & <-). induction s as [|c s IH] using rev_ind; [cg|].
    rewrite forallb_app in H2. apply andb_true_iff in H2 as [H2 H3]. cbn [forallb] in H3.
    rewrite andb_true_r in H3. rewrite dec_value_snoc. unfold is_digit in H3.
    destruct s as [|d s].
    + replace (dec_value [] * 10 + (c - 48)) with (c - 48) by (unfold dec_value; cbn [fold_left]; lia).
      apply dec_one. unfold is_09. lia.
    + apply dec_more; [apply IH; [discriminate|assumption]|]. unfold is_09. lia.
Qed.

Lemma url_port_spec auth dflt port :
  (exists p, url_port auth = Ok p /\ match p with None => dflt | Some n => n end = port)
  <-> AuthorityPort auth dflt port.
Proof.
  unfold url_port, AuthorityPort. split.
  - intros (q & H & E). destruct (port_text auth) as [|c t] eqn:P.
    + injection H as <-. apply port_text_spec in P as (hi & H1 & H2).
      exists hi, []. auto.
    + destruct (forallb is_digit (c :: t)) eqn:D; [|discriminate].
      destruct (dec_value (c :: t) <=? 65535) eqn:L; [|discriminate].
      assert (q = Some (dec_value (c :: t))) by cg. clear H. subst q. cbv iota in E.
      apply port_text_spec in P as (hi & H1 & H2). exists hi, (c :: t).
      split; [assumption|]. split; [assumption|]. right.
      split; [apply decimal_spec; repeat split; try assumption; discriminate|lia].
  - intros (hi & p & H1 & H2 & H3).
    assert (P : port_text auth = p) by (apply port_text_spec; eauto). rewrite P.
    destruct H3 as [[-> ->]|[H3 H4]]; [exists None; auto|].
    apply decimal_spec in H3 as (N & D & V). exists (Some port). split; [|reflexivity].
    destruct p as [|c t]; [cg|]. rewrite D, V. replace (port <=? 65535) with true by lia.
    reflexivity.
Qed.

(** ** Cleaning, schemes *)

Lemma cleaned_spec s t : remove_unsafe (lstrip_c0 s) = t <-> Cleaned s t.
Proof.
  assert (F : forall l, remove_unsafe l = filter (fun c => negb (existsb (N.eqb c) [9; 10; 13])) l).
  { intro l. unfold remove_unsafe. apply filter_ext. intro c. cbn [existsb]. lia. }
  unfold Cleaned. split.
  - intros <-. rewrite F. induction s as [|c s IH]; cbn [lstrip_c0].
    + exists [], []. repeat split; constructor.
    + destruct (c <=? 32) eqn:E.
      * destruct IH as (lead & body & H1 & H2 & H3 & H4). exists (c :: lead), body.
        split; [cbn; cg|]. split; [constructor; [lia|assumption]|]. auto.
      * exists [], (c :: s). split; [reflexivity|]. split; [constructor|]. split; [lia|reflexivity].
  - intros (lead & body & -> & HL & HB & ->). rewrite F. f_equal. induction HL as [|c lead Hc HL IH].
    + cbn [app]. destruct body as [|c b]; [reflexivity|]. cbn [lstrip_c0].
      now replace (c <=? 32) with false by lia.
    + cbn [app lstrip_c0]. now replace (c <=? 32) with true by lia.
Qed.

Lemma to_lower_lit c l : (97 <= l <= 122) -> (to_lower c = l <-> letter_eq c l).
Proof.
  intro H. unfold to_lower, letter_eq. destruct ((65 <=? c) && (c <=? 90)) eqn:E; lia.
Qed.

Lemma scheme_text_lower sch l : Forall (fun c => 97 <= c <= 122) l ->
  (map to_lower sch = l <-> Forall2 letter_eq sch l).
Proof.
  intro HF. revert sch. induction HF as [|x l Hx HF IH]; intros [|c s]; cbn [map].
  - split; [constructor|reflexivity].
  - split; [discriminate|]. intro H; inversion H.
  - split; [discriminate|]. intro H; inversion H.
  - split.
    + intro H. injection H as H1 H2. constructor; [now apply to_lower_lit|now apply IH].
    + intro H. inversion_clear H as [|? ? ? ? H1 H2]. f_equal; [now apply to_lower_lit|now apply IH].
Qed.

Lemma letter_alpha c l : 97 <= l <= 122 -> letter_eq c l -> is_alpha c = true /\ c <> 58.
Proof. unfold letter_eq, is_alpha. lia. Qed.

Lemma names_lower name : In name ["http"; "https"]%string ->
  Forall (fun c => 97 <= c <= 122) (lit name) /\ lit name <> [].
Proof. intros [<-|[<-|[]]]; vm_compute; (split; [repeat (constructor; [split; discriminate|]); constructor|discriminate]). Qed.

(** ** Substrings *)

Lemma starts_with_spec p s : starts_with p s = true <-> exists b, s = p ++ b.
Proof.
  revert s. induction p as [|x p IH]; intros [|y s]; cbn [starts_with app].
  - split; eauto.
  - split; eauto.
  - split; [discriminate|]. intros (b & H). discriminate.
  - rewrite andb_true_iff, N.eqb_eq, IH. split.
    + intros [-> (b & ->)]. now exists b.
    + intros (b & H). injection H as -> ->. eauto.
Qed.
Lemma contains_spec p s : contains p s = true <-> exists a b, s = a ++ p ++ b.
Proof.
  induction s as [|c s IH].
  - cbn [contains]. rewrite orb_false_r, starts_with_spec. split.
    + intros (b & H). exists [], b. exact H.
    + intros (a & b & H). destruct a; [eauto|discriminate].
  - cbn [contains]. rewrite orb_true_iff, starts_with_spec, IH. split.
    + intros [(b & H)|(a & b & H)]; [exists [], b; exact H|]. exists (c :: a), b. cbn. cg.
    + intros ([|x a] & b & H); [left; eauto|right]. cbn in H. injection H as _ H. eauto.
Qed.

(** ** Authority and tail *)

Lemma split_netloc_spec s a b : split_netloc s = (a, b) <->
  s = a ++ b /\ forallb (fun c => negb (netloc_delim c)) a = true /\
  match b with [] => True | c :: _ => netloc_delim c = true end.
Proof.
  revert a b. induction s as [|c s IH]; intros a b; cbn [split_netloc].
  - split.
    + intro H. injection H as <- <-. auto.
    + intros (H & _). destruct a; [|discriminate]. cbn in H. now subst.
  - destruct (netloc_delim c) eqn:D.
    + split.
      * intro H. injection H as <- <-. auto.
      * intros (H1 & H2 & H3). destruct a as [|x a]; [cbn in H1; cg|].
        cbn in H1. injection H1 as <- _. cbn [forallb] in H2. rewrite D in H2. discriminate.
    + destruct (split_netloc s) as [a' b']. split.
      * intro H. injection H as <- <-. destruct (proj1 (IH a' b') eq_refl) as (H1 & H2 & H3).
        split; [cbn; cg|]. split; [cbn [forallb]; now rewrite D|assumption].
      * intros (H1 & H2 & H3). destruct a as [|x a].
        -- cbn in H1. subst b. cg.
        -- cbn in H1. injection H1 as <- H1. cbn [forallb] in H2. apply andb_true_iff in H2 as [_ H2].
           assert (E : (a', b') = (a, b)) by (apply IH; auto). cg.
Qed.

Lemma last_slash_some s : In 47 s -> exists a b, last_slash s = Some (a, 47 :: b).
Proof.
  induction s as [|c s IH]; [intros []|]. intros H. cbn [last_slash].
  destruct (last_slash s) as [[a b]|] eqn:E.
  - destruct (in_dec N.eq_dec 47 s) as [I|I].
    + destruct (IH I) as (a' & b' & E'). injection E' as -> ->. eauto.
    + exfalso. clear - E I. revert a b E. induction s as [|x s IH]; cbn [last_slash]; [discriminate|].
      intros a b. destruct (last_slash s) as [[a' b']|].
      * intros _. eapply IH; [|reflexivity]. intro; apply I; now right.
      * destruct (N.eqb_spec x 47) as [->|]; [|discriminate]. elim I. now left.
  - destruct (N.eqb_spec c 47) as [->|N]; [eauto|].
    destruct H as [H|H]; [cg|]. destruct (IH H) as (a & b & E'). discriminate.
Qed.

(** A path starting with '/' is not split away. *)
Lemma split_params_path url : match url with 47 :: _ => fst (split_params url) <> [] | _ => True end.
Proof.
  destruct url as [|c url]; [exact I|]. destruct (N.eq_dec c 47) as [->|N].
  - unfold split_params.
    destruct (last_slash_some (47 :: url)) as (a & b & ->); [now left|].
    cbn [partition]. change (47 =? 59) with false. cbv iota.
    destruct (partition 59 b) as [[x y]|]; cbn [fst]; [|discriminate].
    destruct a; discriminate.
  - destruct c as [|p]; [exact I|]. repeat (destruct p as [p|p|]; try exact I). cg.
Qed.

(** What follows the authority is empty, "?", "#" or "?#". *)
Definition tail_ok (http : bool) (rest : pystr) : bool :=
  let '(url, fragment) := split1 35 rest in
  let '(url, query) := split1 63 url in
  let '(path, params) := if http && mem 59 url then split_params url else (url, []) in
  match path, params, query, fragment with [], [], [], [] => true | _, _, _, _ => false end.

Lemma tail_ok_spec h rest :
  match rest with [] => True | c :: _ => netloc_delim c = true end ->
  tail_ok h rest = true <-> In rest [[]; lit "?"; lit "#"; lit "?#"].
Proof.
  intro HD. split.
  - unfold tail_ok. destruct (split1 35 rest) as [u f] eqn:E1. destruct (split1 63 u) as [v q] eqn:E2.
    intro H.
    assert (HV : v = [] /\ q = [] /\ f = []).
    { destruct (h && mem 59 v) eqn:M.
      - destruct (split_params v) as [pa ps] eqn:SP.
        destruct pa; [|discriminate]. destruct ps; [|discriminate].
        destruct q; [|discriminate]. destruct f; [|discriminate].
        split; [|auto]. destruct v as [|c v']; [reflexivity|]. exfalso.
        assert (C : c = 47).
        { destruct rest as [|r rest]; [cbn in E1; injection E1 as <-; discriminate|].
          unfold netloc_delim in HD. unfold split1 in E1, E2.
          cbn [partition] in E1. destruct (N.eqb_spec r 35) as [->|N35].
          { injection E1 as <- _. cbn in E2. discriminate. }
          destruct (partition 35 rest) as [[x y]|].
          - injection E1 as <- _. cbn [partition] in E2. destruct (N.eqb_spec r 63) as [->|N63].
            { discriminate. }
            destruct (partition 63 x) as [[x' y']|]; injection E2; intros; subst; lia.
          - injection E1 as <-. cbn [partition] in E2. destruct (N.eqb_spec r 63) as [->|N63].
            { discriminate. }
            destruct (partition 63 rest) as [[x' y']|]; injection E2; intros; subst; lia. }
        subst c. pose proof (split_params_path (47 :: v')) as P. cbv iota beta in P.
        rewrite SP in P. now apply P.
      - destruct v; [|discriminate]. destruct q; [|discriminate]. destruct f; [auto|discriminate]. }
    destruct HV as (-> & -> & ->).
    unfold split1 in E1, E2.
    assert (U : u = [] \/ u = lit "?").
    { destruct (partition 63 u) as [[x y]|] eqn:P.
      - injection E2 as -> ->. apply partition_some in P as [-> _]. now right.
      - injection E2 as ->. now left. }
    destruct (partition 35 rest) as [[x y]|] eqn:P.
    + injection E1 as -> ->. apply partition_some in P as [-> _].
      destruct U as [-> | ->]; cbn; auto.
    + injection E1 as ->. destruct U as [-> | ->]; cbn; auto.
  - intros [<-|[<-|[<-|[<-|[]]]]]; destruct h; reflexivity.
Qed.

Lemma no_delim auth : forallb (fun c => negb (netloc_delim c)) auth = true <->
  (forall c, In c (lit "/?#") -> ~ In c auth).
Proof.
  rewrite forallb_forall. split.
  - intros H c Hc I. specialize (H c I). destruct Hc as [<-|[<-|[<-|[]]]]; discriminate.
  - intros H c I. destruct (netloc_delim c) eqn:E; [|reflexivity]. exfalso.
    unfold netloc_delim in E. apply (H c); [|assumption].
    assert (C : c = 47 \/ c = 63 \/ c = 35) by lia. cbn. intuition.
Qed.

Section WithEnv.
Variable UE : urlenv.

Definition brackets_check (netloc : pystr) : bool :=
  Bool.eqb (mem 91 netloc) (mem 93 netloc) &&
  (if mem 91 netloc && mem 93 netloc
   then ue_bracket_ok UE (fst (split1 93 (snd (split1 91 netloc)))) else true).

Lemma brackets_spec auth : brackets_check auth = true <-> BracketsOk UE auth.
Proof.
  unfold brackets_check, BracketsOk. destruct (mem 91 auth) eqn:M1, (mem 93 auth) eqn:M2;
    cbn [Bool.eqb andb]; rewrite ?mem_spec, ?mem_false in *.
  - unfold split1 at 2. destruct (partition 91 auth) as [[a b]|] eqn:P;
      [|apply partition_none in P; contradiction].
    cbn [snd]. apply partition_some in P. split.
    + intro H. right. split; [assumption|]. exists a, b, (fst (split1 93 b)). split; [assumption|].
      split; [|assumption]. unfold split1. destruct (partition 93 b) as [[c r]|] eqn:Q; cbn [fst].
      * right. exists r. now apply partition_some.
      * left. apply partition_none in Q. auto.
    + intros [[H _]|(_ & a' & b' & inner & H1 & H2 & H3)]; [contradiction|].
      apply partition_some in P, H1. rewrite P in H1. injection H1 as <- <-.
      destruct H2 as [[H2 ->]|(r & H2)].
      * apply partition_none in H2. unfold split1. now rewrite H2.
      * apply partition_some in H2. unfold split1. now rewrite H2.
  - split; [discriminate|]. intros [[H _]|(H & _)]; contradiction.
  - split; [discriminate|]. intros [[_ H]|(_ & a & b & inner & H & _)]; [contradiction|].
    apply partition_some in H. apply partition_none in M1. cg.
  - split; [auto|reflexivity].
Qed.

Lemma nfkc_spec auth :
  forallb (fun c => c <? 128) auth || ue_nfkc_ok UE auth = true <-> NfkcOk UE auth.
Proof.
  unfold NfkcOk. rewrite orb_true_iff, forallb_forall, Forall_forall.
  assert (E : (forall x, In x auth -> (x <? 128) = true) <-> (forall x, In x auth -> x < 128)).
  { split; intros H x Hx; specialize (H x Hx); lia. }
  now rewrite E.
Qed.

(** urlparse gives the parts of an origin. *)
Definition no_extras (u : urlparts) : bool :=
  match up_path u, up_params u, up_query u, up_fragment u with
  | [], [], [], [] => true | _, _, _, _ => false end.

Lemma origin_parts s name auth : In name ["http"; "https"]%string -> auth <> [] ->
  (exists u, urlparse UE s = Ok u /\ up_scheme u = lit name /\ up_netloc u = auth /\
     no_extras u = true) <->
  exists rest tail,
    split_scheme (remove_unsafe (lstrip_c0 s)) = (lit name, 47 :: 47 :: rest) /\
    split_netloc rest = (auth, tail) /\ brackets_check auth = true /\
    forallb (fun c => c <? 128) auth || ue_nfkc_ok UE auth = true /\
    tail_ok true tail = true.
Proof.
  intros HI NE. split.
  - intros (u & HU & H3 & H2 & H1).
    unfold urlparse in HU. destruct (split_scheme (remove_unsafe (lstrip_c0 s))) as [sch url] eqn:SS.
    apply bind_ok in HU as ([netloc url'] & HN & HU).
    assert (Q : (exists rest, url = 47 :: 47 :: rest /\ split_netloc rest = (netloc, url') /\
                 brackets_check netloc = true) \/ netloc = []).
    { repeat match type of HN with
             | (match ?x with _ => _ end) = _ => is_var x; destruct x; try (injection HN as <- <-; now right)
             end.
      left. destruct (split_netloc url) as [n r] eqn:SN.
      apply bind_ok in HN as ([] & C1 & HN). apply check_ok in C1.
      apply bind_ok in HN as ([] & C2 & HN). injection HN as <- <-.
      exists url. split; [reflexivity|]. split; [assumption|]. unfold brackets_check. rewrite C1.
      cbn [andb]. destruct (mem 91 n && mem 93 n); [|reflexivity]. now apply check_ok in C2. }
    destruct (split1 35 url') as [u1 fr] eqn:E1. destruct (split1 63 u1) as [u2 qu] eqn:E2.
    apply bind_ok in HU as ([] & HK & HU). apply check_ok in HK.
    destruct (if existsb (str_eqb sch) uses_params && mem 59 u2 then split_params u2 else (u2, []))
      as [pa ps] eqn:E3.
    assert (EU : u = {| up_scheme := sch; up_netloc := netloc; up_path := pa; up_params := ps;
                        up_query := qu; up_fragment := fr |}) by cg.
    clear HU. subst u. unfold no_extras in H1.
    cbn [up_scheme up_netloc up_path up_params up_query up_fragment] in *. subst sch netloc.
    destruct Q as [(rest & -> & SN & BC)|Q]; [|cg].
    exists rest, url'. split; [reflexivity|]. split; [assumption|].
    split; [assumption|]. split; [assumption|].
    unfold tail_ok. rewrite E1, E2.
    replace (true && mem 59 u2) with (existsb (str_eqb (lit name)) uses_params && mem 59 u2)
      by (destruct HI as [<-|[<-|[]]]; reflexivity).
    rewrite E3. assumption.
  - intros (rest & tail & SS & SN & BC & NK & TO).
    unfold urlparse. rewrite SS, SN.
    unfold brackets_check in BC. apply andb_true_iff in BC as [BC1 BC2].
    rewrite BC1. cbn [check bind].
    assert (C2 : (if mem 91 auth && mem 93 auth then
         check (ue_bracket_ok UE (fst (split1 93 (snd (split1 91 auth))))) (Py EValueError)
       else Ok tt) = Ok tt).
    { destruct (mem 91 auth && mem 93 auth); [|reflexivity]. now rewrite BC2. }
    rewrite C2. cbn [bind]. unfold tail_ok in TO.
    destruct (split1 35 tail) as [u1 fr]. destruct (split1 63 u1) as [u2 qu].
    rewrite NK. cbn [check bind].
    replace (existsb (str_eqb (lit name)) uses_params) with true
      by (destruct HI as [<-|[<-|[]]]; reflexivity).
    destruct (if true && mem 59 u2 then split_params u2 else (u2, [])) as [pa ps].
    eexists. split; [reflexivity|]. unfold no_extras. cbn. auto.
Qed.

Lemma scheme_name sch : str_eqb sch (lit "http") || str_eqb sch (lit "https") = true <->
  exists name, In name ["http"; "https"]%string /\ sch = lit name.
Proof.
  split.
  - intro H. apply orb_true_iff in H as [H|H]; apply str_eqb_spec in H; subst sch;
      [exists "http"%string|exists "https"%string]; cbn; auto.
  - intros (name & [<-|[<-|[]]] & ->); reflexivity.
Qed.

(** parse_origin in one formula. *)
Lemma parse_origin_raw s o :
  parse_origin UE s = Ok o <->
  contains (lit "://") s = true /\
  exists sch rest auth tail name,
    split_scheme (remove_unsafe (lstrip_c0 s)) = (sch, 47 :: 47 :: rest) /\
    split_netloc rest = (auth, tail) /\ brackets_check auth = true /\
    forallb (fun c => c <? 128) auth || ue_nfkc_ok UE auth = true /\
    tail_ok true tail = true /\ auth <> [] /\
    In name ["http"; "https"]%string /\ sch = lit name /\
    (exists p, url_port auth = Ok p /\ match p with None => default_port name | Some n => n end = o_port o) /\
    o_scheme o = sch /\ o_host o = auth.
Proof.
  unfold parse_origin. rewrite bind_ok. split.
  - intros ([] & HC & H). apply check_ok in HC. split; [exact HC|]. apply bind_ok in H as (u & HU & H).
    apply bind_ok in H as ([] & H1 & H). apply check_ok in H1.
    apply bind_ok in H as ([] & H2 & H). apply check_ok in H2.
    apply bind_ok in H as ([] & H3 & H). apply check_ok in H3.
    apply bind_ok in H as (p & HP & H).
    apply scheme_name in H3 as (name & HI & ES).
    assert (NE : up_netloc u <> []) by (destruct (up_netloc u); cg).
    destruct (proj1 (origin_parts s name (up_netloc u) HI NE)) as (rest & tail & SS & SN & BC & NK & TO);
      [exists u; auto|].
    exists (lit name), rest, (up_netloc u), tail, name.
    repeat (split; [first [assumption|reflexivity]|]).
    match type of H with Ok ?x = _ => assert (EO : o = x) by cg end. clear H. subst o.
    cbn [o_scheme o_host o_port]. rewrite ES. split; [|auto]. exists p. split; [assumption|].
    destruct p; [reflexivity|]. destruct HI as [<-|[<-|[]]]; reflexivity.
  - intros (HC & sch & rest & auth & tail & name & SS & SN & BC & NK & TO & NE & HI & -> & (p & HP & PE) & ES & EH).
    exists tt. split; [now apply check_ok|].
    destruct (proj2 (origin_parts s name auth HI NE)) as (u & HU & U1 & U2 & U3); [eauto 10|].
    unfold no_extras in U3. rewrite HU. cbn [bind]. rewrite U3. cbn [check bind].
    rewrite U2. destruct auth as [|c auth]; [cg|]. cbn [check bind].
    rewrite U1. replace (str_eqb (lit name) (lit "http") || str_eqb (lit name) (lit "https")) with true
      by (destruct HI as [<-|[<-|[]]]; reflexivity).
    cbn [check bind]. rewrite HP. cbn [bind]. f_equal. destruct o as [a b c']. cbn [o_scheme o_host o_port] in *.
    rewrite <- ES, <- EH, <- PE. f_equal. destruct p; [reflexivity|].
    rewrite ES. destruct HI as [<-|[<-|[]]]; reflexivity.
Qed.

Lemma split_scheme_spec url name rest : In name ["http"; "https"]%string ->
  (split_scheme url = (lit name, rest) <->
   exists sch, url = sch ++ 58 :: rest /\ scheme_text sch name).
Proof.
  intro HI. destruct (names_lower name HI) as [HL HN]. unfold split_scheme, scheme_text. split.
  - destruct (partition 58 url) as [[sch r]|] eqn:P; [|intro H; injection H; intros; cg].
    destruct sch as [|c sch]; [intro H; injection H; intros; cg|].
    destruct (is_alpha c && forallb scheme_char (c :: sch)); [|intro H; injection H; intros; cg].
    intro H. assert (E1 : map to_lower (c :: sch) = lit name) by cg.
    assert (E2 : r = rest) by cg. subst r. apply partition_some in P as [-> _].
    exists (c :: sch). split; [reflexivity|]. now apply scheme_text_lower.
  - intros (sch & -> & HS).
    assert (A : Forall (fun c => is_alpha c = true /\ c <> 58) sch).
    { clear - HS HL. revert HL. induction HS as [|c l sch ls H HF IH]; intro HL; constructor.
      - inversion_clear HL. eapply letter_alpha; eauto.
      - inversion_clear HL. auto. }
    assert (P : partition 58 (sch ++ 58 :: rest) = Some (sch, rest)).
    { apply partition_some. split; [reflexivity|]. intro I. rewrite Forall_forall in A.
      now apply A in I as [_ I]. }
    rewrite P. destruct sch as [|c sch]; [inversion HS; cg|].
    assert (B : is_alpha c && forallb scheme_char (c :: sch) = true).
    { apply andb_true_iff. split; [now inversion_clear A|]. apply forallb_forall. intros x Hx.
      rewrite Forall_forall in A. apply A in Hx as [Hx _]. unfold scheme_char. now rewrite Hx. }
    rewrite B. f_equal. now apply scheme_text_lower.
Qed.

Lemma parse_origin_iff s o : parse_origin UE s = Ok o <-> OriginText UE s o.
Proof.
  rewrite parse_origin_raw. unfold OriginText. rewrite contains_spec. split.
  - intros (HC & sch & rest & auth & tail & name & SS & SN & BC & NK & TO & NE & HI & -> & HP & ES & EH).
    split; [exact HC|]. apply split_scheme_spec in SS as (sch & EU & HS); [|assumption].
    apply split_netloc_spec in SN as (-> & ND & HT).
    exists sch, auth, tail, name. split; [apply cleaned_spec; exact EU|].
    split; [assumption|]. split; [assumption|]. split; [assumption|]. split; [assumption|].
    split; [now apply no_delim|]. split; [assumption|].
    split; [now apply (tail_ok_spec true)|].
    split; [now apply brackets_spec|]. split; [now apply nfkc_spec|]. now apply url_port_spec.
  - intros (HC & sch & auth & tail & name & CL & HI & HS & ES & NE & ND & EH & HT & BC & NK & HP).
    split; [exact HC|]. exists (lit name), (auth ++ tail), auth, tail, name.
    assert (TD : match tail with [] => True | c :: _ => netloc_delim c = true end)
      by (destruct HT as [<-|[<-|[<-|[<-|[]]]]]; reflexivity || exact I).
    split; [apply split_scheme_spec; [assumption|]; exists sch; split; [now apply cleaned_spec in CL|assumption]|].
    split; [apply split_netloc_spec; split; [reflexivity|]; split; [now apply no_delim|assumption]|].
    split; [now apply brackets_spec|]. split; [now apply nfkc_spec|].
    split; [now apply tail_ok_spec|]. split; [assumption|]. split; [assumption|]. split; [reflexivity|].
    split; [now apply url_port_spec|]. auto.
Qed.

End WithEnv.
