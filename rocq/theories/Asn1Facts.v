(** * Asn1Facts: decoding of sequences, and of the schema of asn1.py. *)
From Coq Require Import List NArith ZArith Bool Lia ZifyBool ZifyNat ZifyN String Sorting.Sorted.
From Coq Require Import Strings.Byte.
From Verif Require Import Base BaseFacts World Der Asn1 DerSpec DerFacts.
Import ListNotations.
Local Open Scope list_scope.

Lemma tag_eqb_spec a b : tag_eqb a b = true <-> a = b.
Proof.
  unfold tag_eqb. destruct a as [c n], b as [c' n']. cbn [tg_class tg_number].
  rewrite andb_true_iff, N.eqb_eq. split.
  - intros [H ->]. f_equal. destruct c, c'; cbn in H; congruence.
  - intros H. injection H as <- <-. destruct c; auto.
Qed.

Lemma path_eqb_spec p q : list_eqb tag_eqb p q = true <-> p = q.
Proof.
  revert q. induction p as [|x p IH]; intros [|y q]; cbn [list_eqb]; try (split; congruence).
  rewrite andb_true_iff, tag_eqb_spec, IH. split.
  - intros [-> ->]. reflexivity.
  - intros H. injection H as <- <-. auto.
Qed.

Lemma lookup_in path cs x : lookup path cs = Some x -> In (path, x) cs.
Proof.
  induction cs as [|[p y] cs IH]; [discriminate|]. cbn [lookup].
  destruct (list_eqb tag_eqb p path) eqn:E.
  - apply path_eqb_spec in E. subst p. intros H. injection H as <-. left. reflexivity.
  - intros H. right. auto.
Qed.

(** Once the explicit tags outnumber those of every candidate nothing is decoded. *)
Lemma deep_never cs : forall depth outer b x,
  (forall p y, In (p, y) cs -> List.length p <= List.length outer)%nat ->
  decode_item depth outer cs b <> Ok x.
Proof.
  induction depth as [|depth IH]; intros outer b x L; [discriminate|].
  rewrite decode_item_header. destruct (header b) as [[[[t c] content] rest]|e]; [|discriminate].
  cbn [bind]. destruct (lookup (outer ++ [t]) cs) as [[pos ty]|] eqn:K.
  - apply lookup_in in K. apply L in K. rewrite app_length in K. cbn in K. lia.
  - destruct (c && negb (tag_class_eqb (tg_class t) Universal)); [|discriminate].
    destruct (decode_item depth (outer ++ [t]) cs content) as [[[pos v] r]|e] eqn:D;
      [|discriminate].
    exfalso. refine (IH _ _ _ _ D). intros p y I. apply L in I. rewrite app_length. lia.
Qed.

(** ** Components of sequences *)

Definition path_of (c : component) : list tag := tag_path (co_tag c) (co_type c).

Definition paths (cs : list component) : list (list tag) := map fst (near 0 cs).

Lemma near_paths cs : forall i j, map fst (near i cs) = map fst (near j cs).
Proof.
  induction cs as [|c cs IH]; intros i j; [reflexivity|]. cbn [near map candidate fst].
  f_equal. destruct (co_optional c); [apply IH|reflexivity].
Qed.

Lemma near_in c post pre : forall i, Forall (fun c => co_optional c = true) pre ->
  In (path_of c) (map fst (near i (pre ++ c :: post))).
Proof.
  induction pre as [|x pre IH]; intros i F; cbn [app near map].
  - left. reflexivity.
  - inversion F as [|? ? O F']; subst. rewrite O. right. apply IH. exact F'.
Qed.

Lemma lookup_near path cs : forall idx pos ty, NoDup (map fst (near idx cs)) ->
  lookup path (near idx cs) = Some (pos, ty) <->
  exists pre c post, cs = pre ++ c :: post /\ Forall (fun c => co_optional c = true) pre /\
    pos = (idx + List.length pre)%nat /\ path_of c = path /\ ty = co_type c.
Proof.
  induction cs as [|c cs IH]; intros idx pos ty ND.
  - cbn [near lookup]. split; [discriminate|]. intros (pre & c & post & H & _).
    destruct pre; discriminate.
  - cbn [near lookup candidate]. fold (path_of c).
    cbn [near map] in ND. inversion ND as [|? ? NI ND']; subst.
    assert (NI' : ~ In (path_of c) (map fst (if co_optional c then near (S idx) cs else [])))
      by exact NI.
    destruct (list_eqb tag_eqb (path_of c) path) eqn:E.
    + apply path_eqb_spec in E. split.
      * intros H. injection H as <- <-. exists [], c, cs. cbn. repeat split; auto; lia.
      * intros (pre & c' & post & H & F & -> & P & ->). destruct pre as [|x pre].
        { cbn in H. injection H as -> ->. cbn. rewrite Nat.add_0_r. reflexivity. }
        cbn in H. injection H as <- ->. inversion F as [|? ? O F']; subst x l.
        exfalso. apply NI'. rewrite E, <- P, O. apply near_in. exact F'.
    + assert (path_of c <> path).
      { intros X. apply path_eqb_spec in X. congruence. }
      destruct (co_optional c) eqn:O.
      * rewrite (IH (S idx) pos ty ND'). split.
        -- intros (pre & c' & post & -> & F & -> & P & ->). exists (c :: pre), c', post.
           cbn. repeat split; auto; lia.
        -- intros (pre & c' & post & H' & F & -> & P & ->). destruct pre as [|x pre].
           { cbn in H'. injection H' as -> ->. contradiction. }
           cbn in H'. injection H' as -> ->. inversion F; subst.
           exists pre, c', post. cbn. repeat split; auto; lia.
      * cbn [lookup]. split; [discriminate|].
        intros (pre & c' & post & H' & F & -> & P & ->). destruct pre as [|x pre].
        { cbn in H'. injection H' as -> ->. contradiction. }
        cbn in H'. injection H' as -> ->. inversion F; congruence.
Qed.

(** At every position the tags tell the components that may come there apart. *)
Fixpoint distinct (l : list (list tag)) : bool :=
  match l with
  | [] => true
  | p :: t => negb (existsb (list_eqb tag_eqb p) t) && distinct t
  end.
Fixpoint well_tagged (cs : list component) : bool :=
  match cs with
  | [] => true
  | c :: t => distinct (paths cs) && well_tagged t
  end.

Lemma distinct_NoDup l : distinct l = true -> NoDup l.
Proof.
  induction l as [|p l IH]; [constructor|]. cbn [distinct]. rewrite andb_true_iff, negb_true_iff.
  intros [H1 H2]. constructor; [|auto]. intros I.
  assert (X : existsb (list_eqb tag_eqb p) l = true); [|congruence].
  apply existsb_exists. exists p. split; [exact I|]. apply path_eqb_spec. reflexivity.
Qed.

Lemma well_tagged_near cs : well_tagged cs = true ->
  forall k idx, NoDup (map fst (near idx (skipn k cs))).
Proof.
  induction cs as [|c cs IH]; intros H k idx.
  - rewrite skipn_nil. constructor.
  - cbn [well_tagged] in H. apply andb_true_iff in H. destruct H as [H1 H2].
    destruct k as [|k]; cbn [skipn]; [|apply IH; exact H2].
    rewrite (near_paths _ idx 0). apply distinct_NoDup. exact H1.
Qed.

(** The bytes of one component with value [v]. *)
Definition PlainItem (depth : nat) (t : asn1) (v : dval) (p : bytes) : Prop :=
  exists c content, Item false Universal c (tg_number (universal t)) content p /\
    decode_content (decode_item depth []) t c content = Ok v.

Definition ComponentItem (depth : nat) (c : component) (v : dval) (p : bytes) : Prop :=
  match co_tag c with
  | None => PlainItem depth (co_type c) v p
  | Some n =>
      match depth with
      | O => False
      | S depth' =>
          exists inner ignored, Item false Context true n (inner ++ ignored) p /\
            PlainItem depth' (co_type c) v inner
      end
  end.

Lemma ComponentItem_length depth c v p :
  ComponentItem depth c v p -> (2 <= List.length p)%nat.
Proof.
  unfold ComponentItem, PlainItem. destruct (co_tag c) as [n|].
  - destruct depth; [contradiction|]. intros (inner & ig & I & _). apply Item_length in I. lia.
  - intros (cc & content & I & _). apply Item_length in I. lia.
Qed.

Lemma universal_class t : tg_class (universal t) = Universal.
Proof. reflexivity. Qed.

Lemma near_paths_short cs : forall idx p y, In (p, y) (near idx cs) -> (List.length p <= 2)%nat.
Proof.
  induction cs as [|c cs IH]; intros idx p y; [contradiction|]. cbn [near]. intros [H|H].
  - unfold candidate in H. injection H as <- _. destruct (co_tag c); cbn; lia.
  - destruct (co_optional c); [eapply IH; exact H|contradiction].
Qed.

Lemma near_item depth idx cs b pos v rest : NoDup (map fst (near idx cs)) ->
  decode_item (S depth) [] (near idx cs) b = Ok (pos, v, rest) <->
  exists pre c post p, cs = pre ++ c :: post /\
    Forall (fun c => co_optional c = true) pre /\ pos = (idx + List.length pre)%nat /\
    ComponentItem depth c v p /\ b = p ++ rest.
Proof.
  intros ND. rewrite decode_item_header. split.
  - destruct (header b) as [[[[t c] content] rest']|e] eqn:H; [|discriminate]. cbn [bind].
    apply header_iff in H. destruct H as (bs & -> & I). cbn [app].
    destruct (lookup [t] (near idx cs)) as [[pos' ty]|] eqn:K.
    + destruct (decode_content (decode_item depth []) ty c content) as [v'|e] eqn:D;
        [|discriminate].
      cbn [bind]. intros H. injection H as <- <- <-.
      apply lookup_near in K; [|exact ND].
      destruct K as (pre & cc & post & E & F & P & PT & ->).
      exists pre, cc, post, bs. repeat (split; [assumption|]). split; [|reflexivity].
      unfold path_of, tag_path in PT. unfold ComponentItem.
      destruct (co_tag cc); [discriminate|]. injection PT as <-. exists c, content. auto.
    + destruct (c && negb (tag_class_eqb (tg_class t) Universal)) eqn:CC; [|discriminate].
      apply andb_true_iff in CC. destruct CC as [-> NU].
      destruct (decode_item depth [t] (near idx cs) content) as [[[pos' v'] r]|e] eqn:D;
        [|discriminate].
      cbn [bind]. intros H. injection H as <- <- <-.
      destruct depth as [|depth]; [discriminate|]. rewrite decode_item_header in D.
      destruct (header content) as [[[[t2 c2] content2] rest2]|e] eqn:H2; [|discriminate].
      cbn [bind app] in D. apply header_iff in H2. destruct H2 as (bs2 & -> & I2).
      destruct (lookup [t; t2] (near idx cs)) as [[pos2 ty]|] eqn:K2.
      * destruct (decode_content (decode_item depth []) ty c2 content2) as [v2|e] eqn:D2;
          [|discriminate].
        cbn [bind] in D. injection D as <- <- <-.
        apply lookup_near in K2; [|exact ND].
        destruct K2 as (pre & cc & post & E & F & P & PT & ->).
        exists pre, cc, post, bs. repeat (split; [assumption|]). split; [|reflexivity].
        unfold path_of, tag_path in PT. unfold ComponentItem.
        destruct (co_tag cc) as [n|]; [|discriminate]. injection PT as <- <-.
        exists bs2, rest2. split; [exact I|]. exists c2, content2. auto.
      * destruct (c2 && negb (tag_class_eqb (tg_class t2) Universal)); [|discriminate].
        destruct (decode_item depth [t; t2] (near idx cs) content2) as [x|e] eqn:D3;
          [|discriminate].
        exfalso. refine (deep_never _ _ _ _ _ _ D3). intros p y. cbn. apply near_paths_short.
  - intros (pre & c & post & p & E & F & P & CI & ->). unfold ComponentItem in CI.
    destruct (co_tag c) as [n|] eqn:T.
    + destruct depth as [|depth]; [contradiction|].
      destruct CI as (inner & ig & I & c2 & content2 & I2 & D2).
      set (t := {| tg_class := Context; tg_number := n |}).
      assert (H : header (p ++ rest) = Ok (t, true, inner ++ ig, rest)).
      { apply header_iff. exists p. auto. }
      rewrite H. cbn [bind app].
      assert (K : lookup [t] (near idx cs) = None).
      { destruct (lookup [t] (near idx cs)) as [[pos' ty]|] eqn:K; [|reflexivity].
        apply lookup_near in K; [|exact ND].
        destruct K as (_ & cc & _ & _ & _ & _ & PT & _). unfold path_of, tag_path in PT.
        destruct (co_tag cc); discriminate. }
      rewrite K. cbn [tg_class t tag_class_eqb negb andb].
      rewrite decode_item_header.
      assert (H2 : header (inner ++ ig) = Ok (universal (co_type c), c2, content2, ig)).
      { apply header_iff. exists inner. auto. }
      rewrite H2. cbn [bind app].
      assert (K2 : lookup [t; universal (co_type c)] (near idx cs) = Some (pos, co_type c)).
      { apply lookup_near; [exact ND|]. exists pre, c, post. repeat (split; [assumption|]).
        split; [|reflexivity]. unfold path_of, tag_path. rewrite T. reflexivity. }
      fold t. rewrite K2, D2. reflexivity.
    + destruct CI as (c2 & content2 & I2 & D2).
      assert (H2 : header (p ++ rest) = Ok (universal (co_type c), c2, content2, rest)).
      { apply header_iff. exists p. auto. }
      rewrite H2. cbn [bind app].
      assert (K2 : lookup [universal (co_type c)] (near idx cs) = Some (pos, co_type c)).
      { apply lookup_near; [exact ND|]. exists pre, c, post. repeat (split; [assumption|]).
        split; [|reflexivity]. unfold path_of, tag_path. rewrite T. reflexivity. }
      rewrite K2, D2. reflexivity.
Qed.

(** ** Sequences *)

(** Bytes and slots of a sequence of components. *)
Inductive Picks (P : component -> dval -> bytes -> Prop)
  : list component -> bytes -> list (option dval) -> Prop :=
| P_nil : Picks P [] [] []
| P_skip c cs b s : co_optional c = true -> Picks P cs b s -> Picks P (c :: cs) b (None :: s)
| P_take c cs p v b s : P c v p -> Picks P cs b s -> Picks P (c :: cs) (p ++ b) (Some v :: s).

Lemma Picks_cons P c cs b s : Picks P (c :: cs) b s ->
  (exists s', s = None :: s' /\ co_optional c = true /\ Picks P cs b s') \/
  (exists v p b' s', b = p ++ b' /\ s = Some v :: s' /\ P c v p /\ Picks P cs b' s').
Proof. intros H. inversion H; subst; [left|right]; eauto 8. Qed.

Lemma assemble_nil (P : component -> dval -> bytes -> Prop) cs : (forall c v p, P c v p -> p <> []) -> forall idx s,
  assemble idx cs [] = Ok s <-> Picks P cs [] s.
Proof.
  intros NE. induction cs as [|c cs IH]; intros idx s; cbn [assemble].
  - split.
    + intros H. injection H as <-. constructor.
    + intros H. inversion H. reflexivity.
  - destruct (co_optional c) eqn:O.
    + split.
      * destruct (assemble (S idx) cs []) as [r|e] eqn:A; [|discriminate]. cbn [bind].
        intros H. injection H as <-. constructor; [exact O|]. eapply IH; eauto.
      * intros H. apply Picks_cons in H.
        destruct H as [(s' & -> & _ & H')|(v & p & b' & s' & E & -> & Hp & H')].
        -- apply (IH (S idx)) in H'. rewrite H'. reflexivity.
        -- apply NE in Hp. destruct p; [congruence|discriminate].
    + split; [discriminate|]. intros H. apply Picks_cons in H.
      destruct H as [(s' & -> & O' & H')|(v & p & b' & s' & E & -> & Hp & H')]; [congruence|].
      apply NE in Hp. destruct p; [congruence|discriminate].
Qed.

Lemma assemble_cons pre c post : forall idx v l s,
  Forall (fun c => co_optional c = true) pre ->
  assemble idx (pre ++ c :: post) (((idx + List.length pre)%nat, v) :: l) = Ok s <->
  exists s', assemble (S (idx + List.length pre)) post l = Ok s' /\
             s = repeat None (List.length pre) ++ Some v :: s'.
Proof.
  induction pre as [|x pre IH]; intros idx v l s F.
  - cbn [List.length app assemble repeat]. rewrite Nat.add_0_r, Nat.eqb_refl. split.
    + destruct (assemble (S idx) post l) as [r|e]; [|discriminate]. cbn [bind].
      intros H. injection H as <-. eauto.
    + intros (s' & -> & ->). reflexivity.
  - inversion F; subst. cbn [List.length app assemble repeat].
    destruct (Nat.eqb idx (idx + S (List.length pre))) eqn:E.
    { apply Nat.eqb_eq in E. lia. }
    rewrite H1. replace (idx + S (List.length pre))%nat with (S idx + List.length pre)%nat by lia.
    split.
    + destruct (assemble (S idx) (pre ++ c :: post) ((S idx + List.length pre, v) :: l)%nat)
        as [r|e] eqn:A; [|discriminate].
      cbn [bind]. intros H. injection H as <-. apply IH in A; [|assumption].
      destruct A as (s' & A & ->). exists s'. auto.
    + intros (s' & A & ->).
      assert (X : assemble (S idx) (pre ++ c :: post) ((S idx + List.length pre, v) :: l)%nat
              = Ok (repeat None (List.length pre) ++ Some v :: s')).
      { apply IH; [assumption|]. eauto. }
      rewrite X. reflexivity.
Qed.

Lemma Picks_split P cs b s : b <> [] -> Picks P cs b s ->
  exists pre c post p v b' s', cs = pre ++ c :: post /\
    Forall (fun c => co_optional c = true) pre /\ P c v p /\ b = p ++ b' /\
    Picks P post b' s' /\ s = repeat None (List.length pre) ++ Some v :: s'.
Proof.
  intros NE H. induction H as [|c cs b s O H IH|c cs p v b s Hp H IH].
  - congruence.
  - destruct (IH NE) as (pre & c' & post & p & v & b' & s' & -> & F & Hp & -> & Hs & ->).
    exists (c :: pre), c', post, p, v, b', s'. cbn. auto 10.
  - exists [], c, cs, p, v, b, s. cbn. auto 10.
Qed.

Lemma Picks_skip P pre cs b s : Forall (fun c => co_optional c = true) pre ->
  Picks P cs b s -> Picks P (pre ++ cs) b (repeat None (List.length pre) ++ s).
Proof. induction 1; intros; cbn; [assumption|]. constructor; auto. Qed.

Lemma near_required c cs idx :
  (if co_optional c then near idx (c :: cs) else [candidate idx c]) = near idx (c :: cs).
Proof. cbn [near]. destruct (co_optional c); reflexivity. Qed.

Lemma skipn_add {A} (l : list A) a b : skipn a (skipn b l) = skipn (b + a) l.
Proof.
  revert l. induction b as [|b IH]; intros l; [reflexivity|]. destruct l; cbn [skipn Nat.add].
  - apply skipn_nil.
  - apply IH.
Qed.

Lemma skipn_drop {A} (cs : list A) idx pre c post :
  skipn idx cs = pre ++ c :: post -> skipn (S (idx + List.length pre)) cs = post.
Proof.
  intros H. replace (S (idx + List.length pre)) with (idx + S (List.length pre))%nat by lia.
  rewrite <- skipn_add, H. clear H. induction pre; cbn; [reflexivity|exact IHpre].
Qed.

Lemma decode_components_picks depth cs : well_tagged cs = true ->
  forall fuel idx content s, (List.length content <= fuel)%nat ->
  (exists l, decode_components (decode_item (S depth) []) fuel cs idx content = Ok l /\
             assemble idx (skipn idx cs) l = Ok s) <->
  Picks (ComponentItem depth) (skipn idx cs) content s.
Proof.
  intros ND.
  assert (NE : forall c v p, ComponentItem depth c v p -> p <> []).
  { intros c v p H ->. apply ComponentItem_length in H. cbn in H. lia. }
  induction fuel as [|fuel IH]; intros idx content s L.
  - destruct content; [|cbn in L; lia]. cbn [decode_components]. split.
    + intros (l & H & A). injection H as <-. eapply assemble_nil; eauto.
    + intros H. exists []. split; [reflexivity|]. eapply assemble_nil; eauto.
  - destruct content as [|x content].
    { cbn [decode_components]. split.
      - intros (l & H & A). injection H as <-. eapply assemble_nil; eauto.
      - intros H. exists []. split; [reflexivity|]. eapply assemble_nil; eauto. }
    cbn [decode_components]. set (b := x :: content) in *.
    assert (NDs : NoDup (map fst (near idx (skipn idx cs)))) by (apply well_tagged_near; exact ND).
    assert (NDs' := NDs). destruct (skipn idx cs) as [|c cs'] eqn:K.
    + split; [intros (l & H & _); discriminate|]. intros H. inversion H.
    + rewrite near_required, <- K. rewrite <- K in NDs'. split.
      * intros (l & H & A).
        destruct (decode_item (S depth) [] (near idx (skipn idx cs)) b)
          as [[[pos v] rest]|e] eqn:D; [|discriminate].
        cbn [bind] in H.
        destruct (decode_components (decode_item (S depth) []) fuel cs (S pos) rest)
          as [r|e] eqn:R; [|discriminate].
        cbn [bind] in H. injection H as <-.
        apply near_item in D; [|exact NDs'].
        destruct D as (pre & c' & post & p & E & F & -> & CI & B).
        rewrite K in E. rewrite K, E in A. apply assemble_cons in A; [|exact F].
        destruct A as (s' & A & ->). rewrite K, E, B.
        assert (LP := ComponentItem_length _ _ _ _ CI).
        apply Picks_skip; [exact F|]. constructor; [exact CI|].
        rewrite <- (skipn_drop cs idx pre c' post) by congruence.
        apply IH; [apply (f_equal (@List.length _)) in B; rewrite app_length in B; lia|].
        exists r. split; [exact R|]. rewrite (skipn_drop cs idx pre c' post) by congruence.
        exact A.
      * intros H. rewrite K in H. apply Picks_split in H; [|discriminate].
        destruct H as (pre & c' & post & p & v & b' & s' & E & F & CI & B & Hs & ->).
        assert (LP := ComponentItem_length _ _ _ _ CI).
        assert (D : decode_item (S depth) [] (near idx (skipn idx cs)) b
                    = Ok ((idx + List.length pre)%nat, v, b')).
        { apply near_item; [exact NDs'|]. exists pre, c', post, p.
          rewrite K. auto. }
        rewrite D. cbn [bind].
        assert (Lb : (List.length b' <= fuel)%nat).
        { apply (f_equal (@List.length _)) in B. rewrite app_length in B. lia. }
        assert (SK : skipn (S (idx + List.length pre)) cs = post).
        { apply (skipn_drop cs idx pre c' post). congruence. }
        rewrite <- SK in Hs. apply IH in Hs; [|exact Lb]. destruct Hs as (r & R & A).
        rewrite R. cbn [bind]. eexists. split; [reflexivity|].
        rewrite K, E. apply assemble_cons; [exact F|]. exists s'. rewrite <- SK. auto.
Qed.

Lemma sequence_content depth cs c content v : well_tagged cs = true ->
  decode_content (decode_item (S depth) []) (ASequence cs) c content = Ok v <->
  c = true /\ exists s, v = DSeq s /\ Picks (ComponentItem depth) cs content s.
Proof.
  intros ND. cbn [decode_content]. destruct c.
  2:{ split; [discriminate|]. intros [H _]. discriminate. }
  split.
  - destruct (decode_components _ _ _ _ _) as [l|e] eqn:D; [|discriminate]. cbn [bind].
    destruct (assemble 0 cs l) as [s|e] eqn:A; [|discriminate]. cbn [bind].
    intros H. injection H as <-. split; [reflexivity|]. exists s. split; [reflexivity|].
    apply (decode_components_picks depth cs ND (List.length content) 0 content s); [lia|].
    exists l. auto.
  - intros [_ (s & -> & H)].
    apply (decode_components_picks depth cs ND (List.length content) 0 content s) in H; [|lia].
    destruct H as (l & D & A). rewrite D. cbn [bind]. cbn [skipn] in A. rewrite A. reflexivity.
Qed.

(** ** Leaves *)

Lemma integer_plain depth v p tag t :
  (t = AInteger /\ tag = 2%N) \/ (t = AEnumerated /\ tag = 10%N) ->
  PlainItem depth t v p <-> exists z, v = DInt z /\ IntegerItem false tag z p.
Proof.
  intros T. assert (D : forall item c content v, decode_content item t c content = Ok v <->
    c = false /\ v = DInt (signed_int content)).
  { intros item c content w. destruct T as [[-> _]|[-> _]]; cbn [decode_content]; destruct c;
      (split; [try discriminate; intros H; injection H as <-; auto|
               intros [? ->]; congruence]). }
  assert (U : tg_number (universal t) = tag) by (destruct T as [[-> ->]|[-> ->]]; reflexivity).
  unfold PlainItem, IntegerItem. rewrite U. split.
  - intros (c & content & I & H). apply D in H. destruct H as [-> ->]. eexists.
    split; [reflexivity|]. exists content. split; [apply signed_int_iff; reflexivity|exact I].
  - intros (z & -> & content & H & I). apply signed_int_iff in H. subst z.
    exists false, content. split; [exact I|]. apply D. auto.
Qed.

Lemma boolean_plain depth v p :
  PlainItem depth ABoolean v p <-> exists b, v = DBool b /\ BooleanItem false b p.
Proof.
  unfold PlainItem, BooleanItem. cbn [universal tg_number]. split.
  - intros (c & content & I & H). cbn [decode_content] in H.
    destruct content as [|x [|? ?]]; try discriminate.
    destruct (N_of_byte x =? 255)%N eqn:E1; [|destruct (N_of_byte x =? 0)%N eqn:E2; [|discriminate]];
      injection H as <-; eexists; (split; [reflexivity|]); exists c; (split; [discriminate|]).
    + replace xff with x; [exact I|]. apply N_of_byte_inj. change (N_of_byte xff) with 255%N. lia.
    + replace x00 with x; [exact I|]. apply N_of_byte_inj. change (N_of_byte x00) with 0%N. lia.
  - intros (b & -> & c & _ & I). exists c, [if b then xff else x00]. split; [exact I|].
    destruct b; reflexivity.
Qed.

Lemma null_plain depth v p :
  PlainItem depth ANull v p <-> v = DNull /\ NullItem false p.
Proof.
  unfold PlainItem, NullItem. cbn [universal tg_number]. split.
  - intros (c & content & I & H). cbn [decode_content] in H.
    destruct c; [discriminate|]. destruct content; [|discriminate]. injection H as <-. auto.
  - intros [-> I]. exists false, []. auto.
Qed.

Lemma octets_plain depth v p :
  PlainItem depth AOctetString v p <-> exists o, v = DOctets o /\ OctetsItem false o p.
Proof.
  unfold PlainItem, OctetsItem. cbn [universal tg_number]. split.
  - intros (c & content & I & H). cbn [decode_content] in H.
    destruct c; [discriminate|]. injection H as <-. eauto.
  - intros (o & -> & I). exists false, o. auto.
Qed.

Lemma single_item depth t b pos v rest :
  decode_item (S depth) [] [([universal t], (0%nat, t))] b = Ok (pos, v, rest) <->
  pos = 0%nat /\ exists p, PlainItem depth t v p /\ b = p ++ rest.
Proof.
  pose (c := (EmptyString, false, @None N, t) : component).
  change [([universal t], (0%nat, t))] with (near 0 [c]).
  rewrite near_item by (repeat constructor; intros []). split.
  - intros (pre & c' & post & p & E & _ & -> & CI & ->). destruct pre as [|x pre].
    + cbn in E. injection E as <- _. split; [reflexivity|]. exists p. auto.
    + cbn in E. injection E as _ E. destruct pre; discriminate.
  - intros [-> (p & H & ->)]. exists [], c, [], p. cbn. auto.
Qed.

Lemma decode_set_iff depth : forall fuel content l, (List.length content <= fuel)%nat ->
  decode_set (decode_item (S depth) []) fuel AInteger content = Ok l <->
  exists zs parts, l = map DInt zs /\ Forall2 (IntegerItem false 2) zs parts /\
                   content = List.concat parts.
Proof.
  induction fuel as [|fuel IH]; intros content l L.
  - destruct content; [|cbn in L; lia]. cbn [decode_set]. split.
    + intros H. injection H as <-. exists [], []. auto.
    + intros (zs & parts & -> & F & E). destruct F as [|z p zs parts I F]; [reflexivity|].
      destruct I as (cc & _ & I). apply Item_length in I. destruct p; [cbn in I; lia|discriminate].
  - destruct content as [|x content].
    { cbn [decode_set]. split.
      - intros H. injection H as <-. exists [], []. auto.
      - intros (zs & parts & -> & F & E). destruct F as [|z p zs parts I F]; [reflexivity|].
        destruct I as (cc & _ & I). apply Item_length in I. destruct p; [cbn in I; lia|discriminate]. }
    cbn [decode_set]. set (b := x :: content) in *. split.
    + destruct (decode_item (S depth) [] [([universal AInteger], (0%nat, AInteger))] b)
        as [[[pos v] rest]|e] eqn:D; [|discriminate].
      cbn [bind]. destruct (decode_set _ fuel AInteger rest) as [r|e] eqn:R; [|discriminate].
      cbn [bind]. intros H. injection H as <-.
      apply single_item in D. destruct D as [_ (p & PI & B)].
      apply (integer_plain depth v p 2 AInteger) in PI; [|auto]. destruct PI as (z & -> & I).
      assert (LP : (2 <= List.length p)%nat).
      { destruct I as (cc & _ & I). apply Item_length in I. lia. }
      apply IH in R.
      2:{ apply (f_equal (@List.length _)) in B. rewrite app_length in B. lia. }
      destruct R as (zs & parts & -> & F & ->). exists (z :: zs), (p :: parts).
      split; [reflexivity|]. split; [constructor; assumption|]. exact B.
    + intros (zs & parts & -> & F & E). destruct F as [|z p zs parts I F]; [discriminate|].
      cbn [List.concat] in E.
      assert (LP : (2 <= List.length p)%nat).
      { destruct I as (cc & _ & I). apply Item_length in I. lia. }
      assert (D : decode_item (S depth) [] [([universal AInteger], (0%nat, AInteger))] b
                  = Ok (0%nat, DInt z, List.concat parts)).
      { apply single_item. split; [reflexivity|]. exists p. split; [|exact E].
        apply (integer_plain depth (DInt z) p 2 AInteger); eauto. }
      rewrite D. cbn [bind].
      assert (R : decode_set (decode_item (S depth) []) fuel AInteger (List.concat parts)
                  = Ok (map DInt zs)).
      { apply IH; [|eauto]. apply (f_equal (@List.length _)) in E. rewrite app_length in E. lia. }
      rewrite R. reflexivity.
Qed.

Lemma set_plain depth v p :
  PlainItem (S depth) (ASetOf AInteger) v p <->
  exists zs, v = DSet (map DInt zs) /\ SetItem false zs p.
Proof.
  unfold PlainItem, SetItem. cbn [universal tg_number]. split.
  - intros (c & content & I & H). cbn [decode_content] in H. destruct c; [|discriminate].
    destruct (decode_set _ _ _ content) as [l|e] eqn:D; [|discriminate]. cbn [bind] in H.
    injection H as <-. apply decode_set_iff in D; [|lia].
    destruct D as (zs & parts & -> & F & ->). eauto 6.
  - intros (zs & -> & parts & F & I). exists true, (List.concat parts). split; [exact I|].
    cbn [decode_content].
    assert (D : decode_set (decode_item (S depth) []) (List.length (List.concat parts)) AInteger
                  (List.concat parts) = Ok (map DInt zs)) by (apply decode_set_iff; eauto).
    rewrite D. reflexivity.
Qed.

(** ** RootOfTrust *)

Lemma Picks_required P c cs b s : co_optional c = false ->
  Picks P (c :: cs) b s <->
  exists v p b' s', b = p ++ b' /\ s = Some v :: s' /\ P c v p /\ Picks P cs b' s'.
Proof.
  intros O. split.
  - intros H. inversion H; subst; [congruence|]. eauto 8.
  - intros (v & p & b' & s' & -> & -> & H & H'). constructor; assumption.
Qed.

Lemma Picks_nil P b s : Picks P [] b s <-> b = [] /\ s = [].
Proof. split; [intros H; inversion H; auto|]. intros [-> ->]. constructor. Qed.

Lemma root_plain depth v p :
  PlainItem (S depth) (ASequence root_of_trust) v p <->
  exists k l st h, v = DSeq [Some (DOctets k); Some (DBool l); Some (DInt st); Some (DOctets h)]
    /\ AuthorizationItem false (FRoot k l st h) p.
Proof.
  unfold PlainItem. cbn [AuthorizationItem].
  assert (G : forall content s, Picks (ComponentItem depth) root_of_trust content s <->
    exists k l st h bk bl bst bh,
      s = [Some (DOctets k); Some (DBool l); Some (DInt st); Some (DOctets h)] /\
      content = bk ++ bl ++ bst ++ bh /\
      OctetsItem false k bk /\ BooleanItem false l bl /\ IntegerItem false 10 st bst /\
      OctetsItem false h bh).
  { intros content s. unfold root_of_trust. split.
    - intros H. apply Picks_required in H; [|reflexivity].
      destruct H as (v1 & p1 & b1 & s1 & -> & -> & H1 & H).
      apply Picks_required in H; [|reflexivity].
      destruct H as (v2 & p2 & b2 & s2 & -> & -> & H2 & H).
      apply Picks_required in H; [|reflexivity].
      destruct H as (v3 & p3 & b3 & s3 & -> & -> & H3 & H).
      apply Picks_required in H; [|reflexivity].
      destruct H as (v4 & p4 & b4 & s4 & -> & -> & H4 & H).
      apply Picks_nil in H. destruct H as [-> ->].
      apply octets_plain in H1. destruct H1 as (k & -> & H1).
      apply boolean_plain in H2. destruct H2 as (l & -> & H2).
      apply (integer_plain depth v3 p3 10 AEnumerated) in H3; [|auto].
      destruct H3 as (st & -> & H3).
      apply octets_plain in H4. destruct H4 as (h & -> & H4).
      exists k, l, st, h, p1, p2, p3, p4. rewrite app_nil_r. auto 10.
    - intros (k & l & st & h & bk & bl & bst & bh & -> & -> & H1 & H2 & H3 & H4).
      constructor; [apply octets_plain; eauto|]. constructor; [apply boolean_plain; eauto|].
      constructor; [apply (integer_plain depth _ _ 10 AEnumerated); eauto|].
      rewrite <- (app_nil_r bh). constructor; [apply octets_plain; eauto|]. constructor. }
  split.
  - intros (c & content & I & H). apply sequence_content in H; [|reflexivity].
    destruct H as [-> (s & -> & H)]. apply G in H.
    destruct H as (k & l & st & h & bk & bl & bst & bh & -> & -> & H1 & H2 & H3 & H4).
    exists k, l, st, h. split; [reflexivity|]. exists bk, bl, bst, bh. auto 10.
  - intros (k & l & st & h & -> & bk & bl & bst & bh & H1 & H2 & H3 & H4 & I).
    exists true, (bk ++ bl ++ bst ++ bh). split; [exact I|].
    apply sequence_content; [reflexivity|]. split; [reflexivity|]. eexists.
    split; [reflexivity|]. apply G. exists k, l, st, h, bk, bl, bst, bh. auto 10.
Qed.

(** ** AuthorizationList *)

(** The decoded form of an authorization. *)
Definition object_of (a : authorization) : dval :=
  match a with
  | FInt z => DInt z
  | FSet zs => DSet (map DInt zs)
  | FNull => DNull
  | FOctets o => DOctets o
  | FRoot k l st h =>
      DSeq [Some (DOctets k); Some (DBool l); Some (DInt st); Some (DOctets h)]
  end.

Definition type_kind (t : asn1) : option kind :=
  match t with
  | AInteger => Some KInt
  | ASetOf AInteger => Some KSet
  | ANull => Some KNull
  | AOctetString => Some KOctets
  | ASequence [(_, false, None, AOctetString); (_, false, None, ABoolean);
               (_, false, None, AEnumerated); (_, false, None, AOctetString)] => Some KRoot
  | _ => None
  end.

Definition kind_type (k : kind) : asn1 :=
  match k with
  | KInt => AInteger | KSet => ASetOf AInteger | KNull => ANull | KOctets => AOctetString
  | KRoot => ASequence root_of_trust
  end.

Lemma kind_plain depth k v p :
  PlainItem (S depth) (kind_type k) v p <->
  exists a, kind_of a = k /\ v = object_of a /\ AuthorizationItem false a p.
Proof.
  destruct k; cbn [kind_type].
  - rewrite (integer_plain (S depth) v p 2 AInteger) by auto. split.
    + intros (z & -> & H). exists (FInt z). auto.
    + intros (a & K & -> & H). destruct a; try discriminate. eexists. split; [reflexivity|exact H].
  - rewrite set_plain. split.
    + intros (z & -> & H). exists (FSet z). auto.
    + intros (a & K & -> & H). destruct a; try discriminate. eexists. split; [reflexivity|exact H].
  - rewrite null_plain. split.
    + intros (-> & H). exists FNull. auto.
    + intros (a & K & -> & H). destruct a; try discriminate. split; [reflexivity|exact H].
  - rewrite octets_plain. split.
    + intros (o & -> & H). exists (FOctets o). auto.
    + intros (a & K & -> & H). destruct a; try discriminate. eexists. split; [reflexivity|exact H].
  - rewrite root_plain. split.
    + intros (k & l & st & h & -> & H). exists (FRoot k l st h). auto.
    + intros (a & K & -> & H). destruct a; try discriminate. do 4 eexists. split; [reflexivity|exact H].
Qed.

(** The schema of a list of optional fields with these tags and kinds. *)
Definition Schema (tags : list (N * kind)) (cs : list component) : Prop :=
  Forall2 (fun t c => co_optional c = true /\ co_tag c = Some (fst t) /\
                      co_type c = kind_type (snd t)) tags cs.

Lemma authorization_schema : Schema android_tags authorization_list.
Proof. repeat (constructor; [repeat split|]). constructor. Qed.

(** The slots of a list of fields. *)
Fixpoint slots_of (tags : list (N * kind)) (l : list (N * authorization))
  : list (option dval) :=
  match tags with
  | [] => []
  | (n, _) :: ts =>
      match l with
      | (m, a) :: l' =>
          if (m =? n)%N then Some (object_of a) :: slots_of ts l'
          else None :: slots_of ts l
      | [] => None :: slots_of ts []
      end
  end.

Definition Known (tags : list (N * kind)) (l : list (N * authorization)) : Prop :=
  StronglySorted N.lt (map fst l) /\
  Forall (fun f => In (fst f, kind_of (snd f)) tags) l.

Lemma slots_of_nil tags : slots_of tags [] = repeat None (List.length tags).
Proof. induction tags as [|[n k] tags IH]; cbn; [reflexivity|]. f_equal. exact IH. Qed.

Lemma Known_tail n k tags l : StronglySorted N.lt (map fst ((n, k) :: tags)) ->
  Known ((n, k) :: tags) l -> Forall (fun f => fst f <> n) l -> Known tags l.
Proof.
  intros _ [S F] NE. split; [exact S|]. rewrite Forall_forall in *. intros f I.
  destruct (F f I) as [E|H]; [|exact H]. injection E as E _. exfalso. eapply NE; eauto.
Qed.

Lemma Known_cons n k tags m a l : StronglySorted N.lt (map fst ((n, k) :: tags)) ->
  Known ((n, k) :: tags) ((m, a) :: l) ->
  (m = n /\ kind_of a = k /\ Known tags l) \/ (m <> n /\ Known tags ((m, a) :: l)).
Proof.
  intros S [SL F]. cbn [map fst] in *. inversion S as [|? ? S' A]; subst.
  inversion SL as [|? ? SL' AL]; subst. inversion F as [|? ? I F']; subst. cbn [fst snd] in I.
  rewrite Forall_forall in A, AL.
  assert (G : forall f, In f l -> (m < fst f)%N) by (intros f Hf; apply AL, in_map, Hf).
  destruct I as [E|I].
  - injection E as <- <-. left. split; [reflexivity|]. split; [reflexivity|].
    split; [exact SL'|]. rewrite Forall_forall in *. intros f Hf.
    destruct (F' f Hf) as [E|H]; [|exact H]. injection E as E _. specialize (G f Hf). lia.
  - assert (L : (n < m)%N). { apply A. apply (in_map fst) in I. exact I. }
    right. split; [lia|]. split; [exact SL|]. constructor; [exact I|].
    rewrite Forall_forall in *. intros f Hf.
    destruct (F' f Hf) as [E|H]; [|exact H]. injection E as E _. specialize (G f Hf). lia.
Qed.

Lemma picks_fields depth tags cs : Schema tags cs -> StronglySorted N.lt (map fst tags) ->
  forall content s,
  Picks (ComponentItem (S (S depth))) cs content s <->
  exists l parts, Known tags l /\ Forall2 (FieldItem false) l parts /\
    content = List.concat parts /\ s = slots_of tags l.
Proof.
  intros SC. induction SC as [|[n k] c tags cs (O & T & Ty) SC IH]; intros SS content s.
  - rewrite Picks_nil. split.
    + intros [-> ->]. exists [], []. repeat split; constructor.
    + intros (l & parts & [_ F] & F2 & -> & ->). destruct F as [|f l I F]; [|contradiction].
      inversion F2. auto.
  - cbn [fst snd] in T, Ty.
    assert (SS' : StronglySorted N.lt (map fst tags)) by (inversion SS; assumption).
    assert (CI : forall v p, ComponentItem (S (S depth)) c v p <->
              exists a, kind_of a = k /\ v = object_of a /\ FieldItem false (n, a) p).
    { intros v p. unfold ComponentItem, FieldItem. rewrite T, Ty. cbn [fst snd]. split.
      - intros (inner & ig & I & PI). apply kind_plain in PI. destruct PI as (a & K & -> & A).
        exists a. split; [exact K|]. split; [reflexivity|]. exists inner, ig.
        split; [exact A|]. split; [discriminate|exact I].
      - intros (a & K & -> & inner & ig & A & _ & I). exists inner, ig. split; [exact I|].
        apply kind_plain. eauto. }
    split.
    + intros H. apply Picks_cons in H.
      destruct H as [(s' & -> & _ & H)|(v & p & b' & s' & -> & -> & Hp & H)];
        apply (IH SS') in H; destruct H as (l & parts & [SL F] & F2 & -> & ->).
      * exists l, parts. split.
        { split; [exact SL|]. eapply Forall_impl; [|exact F]. intros f. right. assumption. }
        split; [exact F2|]. split; [reflexivity|]. cbn [slots_of].
        destruct l as [|[m a] l]; [reflexivity|].
        destruct (m =? n)%N eqn:E; [exfalso|reflexivity].
        inversion F as [|? ? I F']; subst. cbn [fst snd] in I.
        inversion SS as [|? ? _ A]; subst. rewrite Forall_forall in A.
        apply (in_map fst) in I. apply A in I. cbn [fst] in I. lia.
      * apply CI in Hp. destruct Hp as (a & K & -> & FI).
        exists ((n, a) :: l), (p :: parts). split.
        { split.
          - cbn [map fst]. constructor; [exact SL|]. inversion SS as [|? ? _ A]; subst.
            rewrite Forall_forall in *. intros m Hm. apply in_map_iff in Hm.
            destruct Hm as (f & <- & Hf). apply A. apply F in Hf. apply (in_map fst) in Hf.
            exact Hf.
          - constructor; [left; cbn; rewrite K; reflexivity|].
            eapply Forall_impl; [|exact F]. intros f. right. assumption. }
        split; [constructor; assumption|]. split; [reflexivity|]. cbn [slots_of].
        rewrite N.eqb_refl. reflexivity.
    + intros (l & parts & KN & F2 & -> & ->). cbn [slots_of]. destruct l as [|[m a] l].
      * inversion F2; subst. constructor; [exact O|]. apply (IH SS'). exists [], [].
        repeat split; constructor.
      * apply Known_cons in KN; [|exact SS]. destruct KN as [(-> & K & KN)|[NE KN]].
        -- rewrite N.eqb_refl. inversion F2; subst. cbn [List.concat]. constructor.
           { apply CI. eauto. }
           apply (IH SS'). eauto 6.
        -- destruct (m =? n)%N eqn:E; [lia|]. constructor; [exact O|]. apply (IH SS'). eauto 6.
Qed.

Lemma android_sorted : StronglySorted N.lt (map fst android_tags).
Proof.
  apply Sorted_StronglySorted; [intros a b c; apply N.lt_trans|].
  cbn. repeat (constructor; [|constructor; lia]). constructor; constructor.
Qed.

Lemma list_plain depth v p :
  PlainItem (S (S (S depth))) (ASequence authorization_list) v p <->
  exists l, v = DSeq (slots_of android_tags l) /\ ListItem false l p.
Proof.
  unfold PlainItem, ListItem. split.
  - intros (c & content & I & H). apply sequence_content in H; [|vm_compute; reflexivity].
    destruct H as [-> (s & -> & H)].
    apply (picks_fields depth _ _ authorization_schema android_sorted) in H.
    destruct H as (l & parts & K & F & -> & ->). exists l. split; [reflexivity|].
    split; [exact K|]. exists parts. auto.
  - intros (l & -> & K & parts & F & I). exists true, (List.concat parts).
    split; [exact I|]. apply sequence_content; [vm_compute; reflexivity|].
    split; [reflexivity|]. eexists. split; [reflexivity|].
    apply (picks_fields depth _ _ authorization_schema android_sorted). eauto 6.
Qed.

(** ** KeyDescription *)

Definition description_object (d : description) : list (option dval) :=
  [ Some (DInt (de_attestation_version d)); Some (DInt (de_attestation_level d));
    Some (DInt (de_keymaster_version d)); Some (DInt (de_keymaster_level d));
    Some (DOctets (de_challenge d)); Some (DOctets (de_unique_id d));
    Some (DSeq (slots_of android_tags (de_software d)));
    Some (DSeq (slots_of android_tags (de_tee d))) ].

Lemma description_plain depth v p :
  PlainItem (S (S (S (S depth)))) (ASequence key_description_schema) v p <->
  exists d, v = DSeq (description_object d) /\ DescriptionItem false d p.
Proof.
  set (D := S (S (S depth))). unfold PlainItem. split.
  - intros (c & content & I & H). apply sequence_content in H; [|vm_compute; reflexivity].
    destruct H as [-> (s & -> & H)]. unfold key_description_schema in H.
    apply Picks_required in H; [|reflexivity].
    destruct H as (v1 & p1 & b1 & s1 & -> & -> & H1 & H).
    apply Picks_required in H; [|reflexivity].
    destruct H as (v2 & p2 & b2 & s2 & -> & -> & H2 & H).
    apply Picks_required in H; [|reflexivity].
    destruct H as (v3 & p3 & b3 & s3 & -> & -> & H3 & H).
    apply Picks_required in H; [|reflexivity].
    destruct H as (v4 & p4 & b4 & s4 & -> & -> & H4 & H).
    apply Picks_required in H; [|reflexivity].
    destruct H as (v5 & p5 & b5 & s5 & -> & -> & H5 & H).
    apply Picks_required in H; [|reflexivity].
    destruct H as (v6 & p6 & b6 & s6 & -> & -> & H6 & H).
    apply Picks_required in H; [|reflexivity].
    destruct H as (v7 & p7 & b7 & s7 & -> & -> & H7 & H).
    apply Picks_required in H; [|reflexivity].
    destruct H as (v8 & p8 & b8 & s8 & -> & -> & H8 & H).
    apply Picks_nil in H. destruct H as [-> ->].
    apply (integer_plain D v1 p1 2 AInteger) in H1; [|auto]. destruct H1 as (z1 & -> & H1).
    apply (integer_plain D v2 p2 10 AEnumerated) in H2; [|auto]. destruct H2 as (z2 & -> & H2).
    apply (integer_plain D v3 p3 2 AInteger) in H3; [|auto]. destruct H3 as (z3 & -> & H3).
    apply (integer_plain D v4 p4 10 AEnumerated) in H4; [|auto]. destruct H4 as (z4 & -> & H4).
    apply octets_plain in H5. destruct H5 as (o5 & -> & H5).
    apply octets_plain in H6. destruct H6 as (o6 & -> & H6).
    apply list_plain in H7. destruct H7 as (l7 & -> & H7).
    apply list_plain in H8. destruct H8 as (l8 & -> & H8).
    exists {| de_attestation_version := z1; de_attestation_level := z2;
              de_keymaster_version := z3; de_keymaster_level := z4; de_challenge := o5;
              de_unique_id := o6; de_software := l7; de_tee := l8 |}.
    split; [reflexivity|]. exists p1, p2, p3, p4, p5, p6, p7, p8.
    rewrite app_nil_r in I. auto 12.
  - intros (d & -> & p1 & p2 & p3 & p4 & p5 & p6 & p7 & p8 & H1 & H2 & H3 & H4 & H5 & H6 & H7 & H8 & I).
    exists true, (p1 ++ p2 ++ p3 ++ p4 ++ p5 ++ p6 ++ p7 ++ p8). split; [exact I|].
    apply sequence_content; [vm_compute; reflexivity|]. split; [reflexivity|].
    eexists. split; [reflexivity|]. unfold key_description_schema, description_object.
    rewrite <- (app_nil_r p8).
    constructor; [apply (integer_plain D _ _ 2 AInteger); eauto|].
    constructor; [apply (integer_plain D _ _ 10 AEnumerated); eauto|].
    constructor; [apply (integer_plain D _ _ 2 AInteger); eauto|].
    constructor; [apply (integer_plain D _ _ 10 AEnumerated); eauto|].
    constructor; [apply octets_plain; eauto|].
    constructor; [apply octets_plain; eauto|].
    constructor; [apply list_plain; eauto|].
    constructor; [apply list_plain; eauto|]. constructor.
Qed.

Lemma der_decode_iff depth b v rest :
  der_decode (S (S (S (S (S depth))))) (ASequence key_description_schema) b = Ok (v, rest) <->
  exists d p, v = DSeq (description_object d) /\ DescriptionItem false d p /\ b = p ++ rest.
Proof.
  unfold der_decode. set (t := ASequence key_description_schema).
  split.
  - destruct (decode_item _ [] [([universal t], (0%nat, t))] b) as [[[pos w] r]|e] eqn:E;
      [|discriminate].
    cbn [bind]. intros H. injection H as <- <-. apply single_item in E.
    destruct E as [_ (p & H & ->)]. apply description_plain in H.
    destruct H as (d & -> & H). eauto.
  - intros (d & p & -> & H & ->).
    assert (E : decode_item (S (S (S (S (S depth))))) [] [([universal t], (0%nat, t))] (p ++ rest)
                = Ok (0%nat, DSeq (description_object d), rest)).
    { apply single_item. split; [reflexivity|]. exists p. split; [|reflexivity].
      apply description_plain. eauto. }
    rewrite E. reflexivity.
Qed.

(** ** Reading *)

Lemma known_in tags l n a : Known tags l -> In (n, a) l -> In (n, kind_of a) tags.
Proof. intros [_ F] I. rewrite Forall_forall in F. exact (F _ I). Qed.

Lemma slot_of name n k tags cs l : Schema tags cs -> StronglySorted N.lt (map fst tags) ->
  Known tags l -> Forall2 (fun t c => fst t = n <-> co_name c = name) tags cs ->
  In (n, k) tags ->
  forall v, slot name cs (slots_of tags l) = Some v <->
            exists a, v = object_of a /\ In (n, a) l.
Proof.
  intros SC. revert l. induction SC as [|[m k'] c tags cs (O & T & Ty) SC IH];
    intros l SS KN NM IN v; [contradiction|].
  inversion NM as [|? ? ? ? NM1 NM2]; subst. cbn [fst] in NM1.
  assert (SS' : StronglySorted N.lt (map fst tags)) by (inversion SS; assumption).
  assert (LT : forall x, In x tags -> (m < fst x)%N).
  { inversion SS as [|? ? _ A]; subst. rewrite Forall_forall in A. intros x Hx.
    apply A, in_map, Hx. }
  assert (SN : forall o s, slot name (c :: cs) (o :: s) =
               if String.eqb (co_name c) name then o else slot name cs s) by reflexivity.
  destruct (String.eqb (co_name c) name) eqn:EN.
  - apply String.eqb_eq in EN. apply NM1 in EN. subst m. cbn [slots_of].
    destruct l as [|[m a] l].
    + rewrite SN. split; [discriminate|]. intros (a & _ & []).
    + destruct (m =? n)%N eqn:E; rewrite SN.
      * assert (m = n) by lia. subst m. split.
        -- intros H. injection H as <-. exists a. split; [reflexivity|left; reflexivity].
        -- intros (a' & -> & [H|H]); [injection H as ->; reflexivity|].
           destruct KN as [SL _]. cbn [map fst] in SL. inversion SL as [|? ? _ A]; subst.
           rewrite Forall_forall in A. apply (in_map fst) in H. apply A in H. cbn in H. lia.
      * split; [discriminate|]. intros (a' & -> & H).
        apply Known_cons in KN; [|exact SS]. destruct KN as [(? & _)|[_ KN]]; [lia|].
        apply (known_in _ _ _ _ KN) in H. apply LT in H. cbn in H. lia.
  - assert (NN : m <> n).
    { intros E. apply NM1 in E. apply String.eqb_neq in EN. contradiction. }
    destruct IN as [E|IN]; [injection E as E _; contradiction|].
    cbn [slots_of]. destruct l as [|[m' a] l].
    + rewrite SN. apply IH; auto. split; constructor.
    + apply Known_cons in KN; [|exact SS]. destruct KN as [(-> & K & KN)|[NE KN]].
      * rewrite N.eqb_refl, SN. rewrite (IH l SS' KN NM2 IN v). split.
        -- intros (a' & -> & H). exists a'. split; [reflexivity|right; exact H].
        -- intros (a' & -> & [H|H]); [injection H as H _; contradiction|]. eauto.
      * destruct (m' =? m)%N eqn:E; [lia|]. rewrite SN. apply IH; assumption.
Qed.

Lemma ints_map zs : ints (map DInt zs) = zs.
Proof. induction zs; cbn; [reflexivity|]. f_equal. assumption. Qed.

Ltac names :=
  repeat (constructor; [cbn; split; intros H; first [reflexivity|discriminate H]|]); constructor.

Lemma read_list_spec l : KnownFields l -> ListRead l (read_list (slots_of android_tags l)).
Proof.
  intros K.
  assert (P := slot_of "purpose" 1 KSet _ _ l authorization_schema android_sorted K
                 ltac:(names) ltac:(cbn; tauto)).
  assert (A := slot_of "allApplications" 600 KNull _ _ l authorization_schema android_sorted K
                 ltac:(names) ltac:(cbn; tauto)).
  assert (O := slot_of "origin" 702 KInt _ _ l authorization_schema android_sorted K
                 ltac:(names) ltac:(cbn; tauto)).
  assert (KP : forall a, In (1%N, a) l -> kind_of a = KSet).
  { intros a H. apply (known_in android_tags l _ _ K) in H. cbn in H.
    repeat (destruct H as [H|H]; [first [discriminate H|injection H as <-; reflexivity]|]).
    contradiction. }
  assert (KA : forall a, In (600%N, a) l -> kind_of a = KNull).
  { intros a H. apply (known_in android_tags l _ _ K) in H. cbn in H.
    repeat (destruct H as [H|H]; [first [discriminate H|injection H as <-; reflexivity]|]).
    contradiction. }
  assert (KO : forall a, In (702%N, a) l -> kind_of a = KInt).
  { intros a H. apply (known_in android_tags l _ _ K) in H. cbn in H.
    repeat (destruct H as [H|H]; [first [discriminate H|injection H as <-; reflexivity]|]).
    contradiction. }
  set (s := slots_of android_tags l) in *. unfold ListRead, read_list.
  cbn [al_purpose al_all_applications al_origin]. split; [|split].
  - intros zs. split.
    + destruct (slot "purpose" authorization_list s) as [v|] eqn:E; [|discriminate].
      destruct (proj1 (P v) eq_refl) as (a & -> & I). pose proof (KP a I) as KI.
      destruct a; try discriminate. cbn [object_of]. rewrite ints_map. intros H.
      injection H as <-. exact I.
    + intros I. assert (E : slot "purpose" authorization_list s = Some (DSet (map DInt zs))).
      { apply P. exists (FSet zs). auto. }
      rewrite E, ints_map. reflexivity.
  - destruct (slot "allApplications" authorization_list s) as [v|] eqn:E.
    + destruct (proj1 (A v) eq_refl) as (a & -> & I). pose proof (KA a I) as KI.
      destruct a; try discriminate. split; auto.
    + split; [discriminate|]. intros I.
      assert (X : None = Some DNull) by (apply A; exists FNull; auto). discriminate.
  - intros z. split.
    + destruct (slot "origin" authorization_list s) as [v|] eqn:E; [|discriminate].
      destruct (proj1 (O v) eq_refl) as (a & -> & I). pose proof (KO a I) as KI.
      destruct a; try discriminate. cbn [object_of]. intros H.
      injection H as <-. exact I.
    + intros I. assert (E : slot "origin" authorization_list s = Some (DInt z)).
      { apply O. exists (FInt z). auto. }
      rewrite E. reflexivity.
Qed.

(** [ListRead] fixes the reading. *)
Lemma ListRead_unique l a a' : ListRead l a -> ListRead l a' -> a = a'.
Proof.
  intros (P & A & O) (P' & A' & O'). destruct a as [p aa o], a' as [p' aa' o'].
  cbn [al_purpose al_all_applications al_origin] in *. f_equal.
  - destruct p as [zs|].
    + symmetry. apply P', P. reflexivity.
    + destruct p' as [zs|]; [|reflexivity]. apply P, P'. reflexivity.
  - destruct aa.
    + symmetry. apply A', A. reflexivity.
    + destruct aa'; [|reflexivity]. apply A, A'. reflexivity.
  - destruct o as [z|].
    + symmetry. apply O', O. reflexivity.
    + destruct o' as [z|]; [|reflexivity]. apply O, O'. reflexivity.
Qed.

Lemma DescriptionItem_known der d p : DescriptionItem der d p ->
  KnownFields (de_software d) /\ KnownFields (de_tee d).
Proof.
  intros (b1 & b2 & b3 & b4 & b5 & b6 & b7 & b8 & _ & _ & _ & _ & _ & _ & [K7 _] & [K8 _] & _).
  auto.
Qed.

Lemma WOk_inj {A} (a b : A) : WOk a = WOk b -> a = b.
Proof. congruence. Qed.

Lemma description_slots d {A} (f : bytes -> list (option dval) -> list (option dval) -> A) x :
  match slot "attestationChallenge" key_description_schema (description_object d),
        slot "softwareEnforced" key_description_schema (description_object d),
        slot "teeEnforced" key_description_schema (description_object d) with
  | Some (DOctets ch), Some (DSeq se), Some (DSeq tee) => f ch se tee
  | _, _, _ => x
  end = f (de_challenge d) (slots_of android_tags (de_software d))
          (slots_of android_tags (de_tee d)).
Proof. reflexivity. Qed.

Lemma decode_key_description_iff depth b kd : (5 <= depth)%nat ->
  decode_key_description depth b = WOk kd <->
  exists d p rest, b = p ++ rest /\ DescriptionItem false d p /\ DescriptionRead d kd.
Proof.
  intros D. replace depth with (S (S (S (S (S (depth - 5)))))) by lia.
  generalize (depth - 5)%nat. clear D depth. intros depth.
  unfold decode_key_description. split.
  - destruct (der_decode _ _ b) as [[v rest]|e] eqn:E.
    + apply der_decode_iff in E. destruct E as (d & p & -> & I & ->).
      rewrite !description_slots. intros H. apply WOk_inj in H. subst kd.
      exists d, p, rest. split; [reflexivity|]. split; [exact I|].
      destruct (DescriptionItem_known _ _ _ I) as [K1 K2].
      split; [reflexivity|]. split; apply read_list_spec; assumption.
    + destruct e; discriminate.
  - intros (d & p & rest & -> & I & R).
    assert (E : der_decode (S (S (S (S (S depth))))) (ASequence key_description_schema) (p ++ rest)
                = Ok (DSeq (description_object d), rest)).
    { apply der_decode_iff. eauto. }
    rewrite E, !description_slots.
    destruct (DescriptionItem_known _ _ _ I) as [K1 K2]. destruct R as (RC & RS & RT).
    destruct kd as [ch se tee]. cbn [kd_challenge kd_software kd_tee] in *. subst ch.
    rewrite (ListRead_unique _ _ _ RS (read_list_spec _ K1)).
    rewrite (ListRead_unique _ _ _ RT (read_list_spec _ K2)). reflexivity.
Qed.
