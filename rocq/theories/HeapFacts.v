(** * HeapFacts: heaps only grow, and what is reached from old objects does not change. *)
From Coq Require Import List NArith ZArith Bool String Arith Lia.
From Verif Require Import Base PyVal Heap.
Import ListNotations.
Local Open Scope list_scope.

(** ** Growing heaps *)

Lemma nth_app {A} (l m : list A) i x : nth_error l i = Some x -> nth_error (l ++ m) i = Some x.
Proof. intros H. rewrite nth_error_app1; [exact H|]. apply nth_error_Some. congruence. Qed.

Lemma view_agree h h' n r (S : nat -> Prop) :
  (forall a, S a -> nth_error h' a = nth_error h a) ->
  (forall a nd k x, S a -> nth_error h a = Some nd -> In (k, RAddr x) (nd_slots nd) -> S x) ->
  (forall a, r = RAddr a -> S a) ->
  view n h' r = view n h r.
Proof.
  intros Hs Hc. revert r. induction n as [|n IH]; intros [|v|a] Hr; cbn; try reflexivity.
  rewrite (Hs a (Hr a eq_refl)). destruct (nth_error h a) as [nd|] eqn:E; [|reflexivity].
  f_equal. apply map_ext_in. intros [k r] Hi. cbn. f_equal.
  apply IH. intros x ->. exact (Hc a nd k x (Hr a eq_refl) E Hi).
Qed.

Lemma view_app h new n r : closed h -> valid h r -> view n (h ++ new) r = view n h r.
Proof.
  intros Hc Hv. apply (view_agree h (h ++ new) n r (fun a => (a < List.length h)%nat)).
  - intros a Ha. now apply nth_error_app1.
  - intros a nd k x _ E Hi. exact (Hc nd k (RAddr x) (nth_error_In _ _ E) Hi).
  - intros a ->. exact Hv.
Qed.

Lemma valid_app h new r : valid h r -> valid (h ++ new) r.
Proof. destruct r; cbn; auto. rewrite app_length. lia. Qed.

(** ** Writing *)

Lemma store_length h a nd : List.length (store h a nd) = List.length h.
Proof. revert a; induction h; intros [|?]; cbn; auto. Qed.
Lemma store_same h a nd : (a < List.length h)%nat -> nth_error (store h a nd) a = Some nd.
Proof. revert a; induction h; intros [|a'] H; cbn in *; try lia; auto. apply IHh. lia. Qed.
Lemma store_other h a nd b : a <> b -> nth_error (store h a nd) b = nth_error h b.
Proof. revert a b; induction h; intros [|a'] [|b'] H; cbn; try congruence; auto. Qed.
Lemma write_length h a s r : List.length (write h a s r) = List.length h.
Proof. unfold write. destruct (nth_error h a); auto. apply store_length. Qed.
Lemma write_other h a s r b : a <> b -> nth_error (write h a s r) b = nth_error h b.
Proof. unfold write. destruct (nth_error h a); auto. intros. now apply store_other. Qed.
Lemma write_same h a s r nd : nth_error h a = Some nd -> nth_error (write h a s r) a = Some (put nd s r).
Proof.
  intros E. unfold write. rewrite E. apply store_same. apply nth_error_Some. congruence.
Qed.
Lemma put_in nd s r k x : In (k, x) (nd_slots (put nd s r)) -> In (k, x) (nd_slots nd) \/ x = r.
Proof.
  cbn. intros H. apply in_map_iff in H as ([k' x'] & E & Hi). cbn in E.
  destruct (slot_eqb k' s); injection E as <- <-; auto.
Qed.
Lemma write_app h new c s r : (List.length h <= c)%nat -> exists new',
  write (h ++ new) c s r = h ++ new' /\ List.length new' = List.length new.
Proof.
  intros Hc. unfold write. destruct (nth_error (h ++ new) c); [|now exists new].
  exists (store new (c - List.length h) (put n s r)). split; [|apply store_length].
  revert c Hc. induction h as [|x h IH]; intros c Hc; cbn.
  - f_equal. cbn in Hc. lia.
  - destruct c; cbn in *; [lia|]. f_equal. now apply IH; lia.
Qed.

(** ** Steps *)

Section Steps.
Variable dc : heap -> nat -> heap * nat.
Hypothesis DC : copies dc.

Lemma setter_inv h b name v h' c : setter dc h b name v = Ok (h', c) ->
  exists h1, dc h b = (h1, c) /\ h' = write h1 c (SAttr name) v.
Proof.
  unfold setter. intros H.
  destruct (required name), v; try discriminate; destruct (dc h b) as [h1 c1] eqn:E;
    injection H as <- <-; eauto.
Qed.

Lemma closed_app h new : closed h ->
  (forall nd k r, In nd new -> In (k, r) (nd_slots nd) -> valid (h ++ new) r) -> closed (h ++ new).
Proof.
  intros Hc Hn nd k r Hi Hk. apply in_app_or in Hi as [Hi|Hi].
  - apply valid_app. exact (Hc nd k r Hi Hk).
  - exact (Hn nd k r Hi Hk).
Qed.

Lemma closed_write h a s r : closed h -> valid h r -> closed (write h a s r).
Proof.
  intros Hc Hv nd k x Hi Hk.
  assert (V : forall y, valid h y -> valid (write h a s r) y).
  { intros [| |y]; cbn; auto. now rewrite write_length. }
  apply V. apply In_nth_error in Hi as (i & Hi). destruct (Nat.eq_dec a i) as [<-|Hne].
  - destruct (nth_error h a) as [nd0|] eqn:E.
    + rewrite (write_same _ _ _ _ _ E) in Hi. injection Hi as <-.
      apply put_in in Hk as [Hk| ->]; [|exact Hv]. exact (Hc _ _ _ (nth_error_In _ _ E) Hk).
    + exfalso. unfold write in Hi. rewrite E in Hi. congruence.
  - rewrite write_other in Hi by exact Hne. exact (Hc _ _ _ (nth_error_In _ _ Hi) Hk).
Qed.

Lemma setter_grows h b name v h' c : closed h -> (b < List.length h)%nat -> valid h v ->
  setter dc h b name v = Ok (h', c) ->
  closed h' /\ (exists new, h' = h ++ new) /\ (List.length h <= c < List.length h')%nat.
Proof.
  intros Hc Hb Hv H. apply setter_inv in H as (h1 & E & ->).
  destruct (DC h b Hc Hb) as (new & f & E' & Hf & _ & Hi). rewrite E in E'. injection E' as -> ->.
  assert (Hr : (List.length h <= f b < List.length h + List.length new)%nat).
  { destruct (nth_error h b) as [nd|] eqn:Eb; [|apply nth_error_None in Eb; lia].
    destruct (Hf b nd (reach_here h b) Eb) as [H1 H2].
    split; [exact H1|]. rewrite <- app_length. apply nth_error_Some. congruence. }
  assert (C1 : closed (h ++ new)).
  { apply closed_app; [exact Hc|]. intros nd k [| |x] Hn Hk; cbn; auto.
    rewrite app_length. apply (Hi nd k x Hn Hk). }
  repeat split.
  - apply closed_write; [exact C1|now apply valid_app].
  - destruct (write_app h new (f b) (SAttr name) v (proj1 Hr)) as (new' & -> & _). eauto.
  - apply Hr.
  - rewrite write_length, app_length. apply Hr.
Qed.

Lemma get_valid h nd name : closed h -> In nd h -> valid h (get nd name).
Proof.
  intros Hc Hi. unfold get. destruct (find _ _) as [[k r]|] eqn:E; [|exact I].
  apply find_some in E as [E _]. exact (Hc nd k r Hi E).
Qed.

Lemma creation_build_inv h b u c h' o : heap_creation_build h b u c = Ok (h', o) ->
  exists nd inner outer, nth_error h b = Some nd /\ h' = h ++ [inner; outer] /\ o = S (List.length h) /\
   (forall k r, In (k, r) (nd_slots inner) -> (exists n, r = get nd n) \/ r = u \/ r = c) /\
   (forall k r, In (k, r) (nd_slots outer) -> r = RAddr (List.length h)).
Proof.
  unfold heap_creation_build. destruct (nth_error h b) as [nd|]; [|discriminate].
  destruct (is_rnone u || is_rnone c); [discriminate|]. destruct (existsb _ _); [discriminate|]. intros H. injection H as <- <-.
  exists nd. do 2 eexists. split; [reflexivity|]. split; [reflexivity|]. split; [reflexivity|].
  split; intros k r Hi; cbn in Hi.
  - repeat (destruct Hi as [Hi|Hi]; [injection Hi as _ <-; eauto|]); destruct Hi.
  - destruct Hi as [Hi|[]]. now injection Hi as _ <-.
Qed.
Lemma request_build_inv h b u c h' o : heap_request_build h b u c = Ok (h', o) ->
  exists nd inner outer, nth_error h b = Some nd /\ h' = h ++ [inner; outer] /\ o = S (List.length h) /\
   (forall k r, In (k, r) (nd_slots inner) -> (exists n, r = get nd n) \/ r = u \/ r = c) /\
   (forall k r, In (k, r) (nd_slots outer) -> r = RAddr (List.length h) \/ r = get nd "_mediation").
Proof.
  unfold heap_request_build. destruct (nth_error h b) as [nd|]; [|discriminate].
  destruct (is_rnone u); [discriminate|]. destruct (is_rnone _); [discriminate|]. intros H. injection H as <- <-.
  exists nd. do 2 eexists. split; [reflexivity|]. split; [reflexivity|]. split; [reflexivity|].
  split; intros k r Hi; cbn in Hi.
  - repeat (destruct Hi as [Hi|Hi]; [injection Hi as _ <-; eauto|]); destruct Hi.
  - destruct Hi as [Hi|[Hi|[]]]; injection Hi as _ <-; auto.
Qed.

Lemma creation_build_closed h b u c h' o : closed h -> valid h u -> valid h c ->
  heap_creation_build h b u c = Ok (h', o) -> closed h'.
Proof.
  intros Hc Hu Hv H. apply creation_build_inv in H as (nd & inner & outer & E & -> & -> & Hi & Ho).
  apply closed_app; [exact Hc|]. intros nd' k r [<-|[<-|[]]] Hk.
  - apply Hi in Hk as [(n & ->)|[->| ->]]; apply valid_app; auto.
    apply get_valid; [exact Hc|exact (nth_error_In _ _ E)].
  - apply Ho in Hk as ->. cbn. rewrite app_length. cbn. lia.
Qed.
Lemma request_build_closed h b u c h' o : closed h -> valid h u -> valid h c ->
  heap_request_build h b u c = Ok (h', o) -> closed h'.
Proof.
  intros Hc Hu Hv H. apply request_build_inv in H as (nd & inner & outer & E & -> & -> & Hi & Ho).
  apply closed_app; [exact Hc|]. intros nd' k r [<-|[<-|[]]] Hk.
  - apply Hi in Hk as [(n & ->)|[->| ->]]; apply valid_app; auto.
    apply get_valid; [exact Hc|exact (nth_error_In _ _ E)].
  - apply Ho in Hk as [-> | ->].
    + cbn. rewrite app_length. cbn. lia.
    + apply valid_app, get_valid; [exact Hc|exact (nth_error_In _ _ E)].
Qed.

Lemma step_grows h h' : closed h -> step dc h h' -> closed h' /\ exists new, h' = h ++ new.
Proof.
  intros Hc H. destruct H as [h nd Hn|h b name v h' c Hb Hv H|h b u c h' o Hu Hv H|h b u c h' o Hu Hv H].
  - split; [|eauto]. apply closed_app; [exact Hc|]. intros nd' k r [<-|[]] Hk. exact (Hn k r Hk).
  - destruct (setter_grows h b name v h' c Hc Hb Hv H) as (H1 & H2 & _). auto.
  - split; [exact (creation_build_closed _ _ _ _ _ _ Hc Hu Hv H)|].
    apply creation_build_inv in H as (? & ? & ? & _ & -> & _). eauto.
  - split; [exact (request_build_closed _ _ _ _ _ _ Hc Hu Hv H)|].
    apply request_build_inv in H as (? & ? & ? & _ & -> & _). eauto.
Qed.

Lemma steps_grow h h' : closed h -> steps dc h h' -> closed h' /\ exists new, h' = h ++ new.
Proof.
  intros Hc H. induction H as [h|h h1 h2 H1 H2 IH].
  - split; [exact Hc|exists []; now rewrite app_nil_r].
  - destruct (step_grows _ _ Hc H1) as (C1 & n1 & ->). destruct (IH C1) as (C2 & n2 & ->).
    split; [exact C2|]. rewrite <- app_assoc. eauto.
Qed.

(** ** Builds of an old builder *)

Lemma build_view_creation n h u c b : closed h -> valid h u -> valid h c ->
  forall nd, nth_error h b = Some nd ->
  shows n (heap_creation_build h b u c) =
  if is_rnone u || is_rnone c then Raise (Py EAssertionError) else
  if existsb (fun n => is_rnone (get nd n)) ["_rp"; "_pub_key_cred_params"; "_attestation"]%string
  then raise BuilderError
  else Ok (match n with
    | O => TCut
    | S n1 => TNode "CredentialCreationOptions" [(SAttr "public_key", match n1 with
      | O => TCut
      | S n2 => TNode "PublicKeyCredentialCreationOptions"
         [(SAttr "rp", view n2 h (get nd "_rp")); (SAttr "user", view n2 h u);
          (SAttr "challenge", view n2 h c);
          (SAttr "pub_key_cred_params", view n2 h (get nd "_pub_key_cred_params"));
          (SAttr "timeout", view n2 h (get nd "_timeout"));
          (SAttr "exclude_credentials", view n2 h (get nd "_exclude_credentials"));
          (SAttr "authenticator_selection", view n2 h (get nd "_authenticator_selection"));
          (SAttr "attestation", view n2 h (get nd "_attestation"));
          (SAttr "extensions", view n2 h (get nd "_extensions"))]
      end)]
    end)%string.
Proof.
  intros Hc Hu Hv nd E. unfold heap_creation_build. rewrite E.
  destruct (is_rnone u || is_rnone c); [reflexivity|]. destruct (existsb _ _); [reflexivity|]. unfold shows. f_equal.
  destruct n as [|n1]; [reflexivity|]. cbn [view].
  rewrite nth_error_app2 by lia.
  replace (S (List.length h) - List.length h)%nat with 1%nat by lia. cbn [nth_error nd_class nd_slots map fst snd].
  do 3 f_equal. destruct n1 as [|n2]; [reflexivity|]. cbn [view].
  rewrite nth_error_app2 by lia. rewrite Nat.sub_diag. cbn [nth_error nd_class nd_slots map fst snd].
  assert (G : forall name, valid h (get nd name)).
  { intros. apply get_valid; [exact Hc|exact (nth_error_In _ _ E)]. }
  rewrite !view_app by (auto). reflexivity.
Qed.
Lemma build_view_request n h c l b : closed h -> valid h c -> valid h l ->
  forall nd, nth_error h b = Some nd ->
  shows n (heap_request_build h b c l) =
  if is_rnone c then Raise (Py EAssertionError) else
  if is_rnone (get nd "_mediation") then raise BuilderError
  else Ok (match n with
    | O => TCut
    | S n1 => TNode "CredentialRequestOptions"
      [(SAttr "mediation", view n1 h (get nd "_mediation")); (SAttr "public_key", match n1 with
      | O => TCut
      | S n2 => TNode "PublicKeyCredentialRequestOptions"
         [(SAttr "challenge", view n2 h c); (SAttr "timeout", view n2 h (get nd "_timeout"));
          (SAttr "rp_id", view n2 h (get nd "_rp_id")); (SAttr "allow_credentials", view n2 h l);
          (SAttr "user_verification", view n2 h (get nd "_user_verification"));
          (SAttr "extensions", view n2 h (get nd "_extensions"))]
      end)]
    end)%string.
Proof.
  intros Hc Hu Hv nd E. unfold heap_request_build. rewrite E.
  destruct (is_rnone c); [reflexivity|]. destruct (is_rnone _); [reflexivity|]. unfold shows. f_equal.
  destruct n as [|n1]; [reflexivity|]. cbn [view].
  rewrite nth_error_app2 by lia.
  replace (S (List.length h) - List.length h)%nat with 1%nat by lia. cbn [nth_error nd_class nd_slots map fst snd].
  assert (G : forall name, valid h (get nd name)).
  { intros. apply get_valid; [exact Hc|exact (nth_error_In _ _ E)]. }
  rewrite (view_app h _ n1 (get nd "_mediation")) by auto.
  do 4 f_equal. destruct n1 as [|n2]; [reflexivity|]. cbn [view].
  rewrite nth_error_app2 by lia. rewrite Nat.sub_diag. cbn [nth_error nd_class nd_slots map fst snd].
  rewrite !view_app by (auto). reflexivity.
Qed.

Lemma old_creation_same h h' b u c n : closed h -> steps dc h h' ->
  (b < List.length h)%nat -> valid h u -> valid h c ->
  shows n (heap_creation_build h' b u c) = shows n (heap_creation_build h b u c).
Proof.
  intros Hc Hs Hb Hu Hv. destruct (steps_grow h h' Hc Hs) as (C' & new & ->).
  destruct (nth_error h b) as [nd|] eqn:E; [|apply nth_error_None in E; lia].
  assert (G : forall name, valid h (get nd name)).
  { intros. apply get_valid; [exact Hc|exact (nth_error_In _ _ E)]. }
  rewrite (build_view_creation n h u c b Hc Hu Hv nd E).
  rewrite (build_view_creation n (h ++ new) u c b C' (valid_app _ _ _ Hu) (valid_app _ _ _ Hv) nd (nth_app _ _ _ _ E)).
  destruct (is_rnone u || is_rnone c); [reflexivity|]. destruct (existsb _ _); [reflexivity|]. destruct n as [|[|n]]; try reflexivity.
  rewrite !view_app by auto. reflexivity.
Qed.
Lemma old_request_same h h' b u c n : closed h -> steps dc h h' ->
  (b < List.length h)%nat -> valid h u -> valid h c ->
  shows n (heap_request_build h' b u c) = shows n (heap_request_build h b u c).
Proof.
  intros Hc Hs Hb Hu Hv. destruct (steps_grow h h' Hc Hs) as (C' & new & ->).
  destruct (nth_error h b) as [nd|] eqn:E; [|apply nth_error_None in E; lia].
  assert (G : forall name, valid h (get nd name)).
  { intros. apply get_valid; [exact Hc|exact (nth_error_In _ _ E)]. }
  rewrite (build_view_request n h u c b Hc Hu Hv nd E).
  rewrite (build_view_request n (h ++ new) u c b C' (valid_app _ _ _ Hu) (valid_app _ _ _ Hv) nd (nth_app _ _ _ _ E)).
  destruct (is_rnone u); [reflexivity|]. destruct (is_rnone _); [reflexivity|]. destruct n as [|[|n]]; try reflexivity;
  rewrite !view_app by auto; reflexivity.
Qed.

(** ** What a setter returns *)

Lemma slot_eqb_eq s t : slot_eqb s t = true <-> s = t.
Proof.
  destruct s, t; cbn; try (split; congruence).
  - rewrite String.eqb_eq. split; congruence.
  - rewrite N.eqb_eq. split; congruence.
Qed.

Lemma reaches_trans h r x y : reaches h r x -> reaches h (RAddr x) y -> reaches h r y.
Proof. intros H. induction H; auto. intros Hy. econstructor; eauto. Qed.

Lemma reaches_valid h r x : closed h -> valid h r -> reaches h r x -> (x < List.length h)%nat.
Proof.
  intros Hc Hv H. induction H as [a|a nd k r x E Hi H IH]; [exact Hv|].
  apply IH. exact (Hc nd k r (nth_error_In _ _ E) Hi).
Qed.

(** The result of a setter, spelled out. *)
Lemma setter_result h b name v h' c : closed h -> (b < List.length h)%nat -> valid h v ->
  setter dc h b name v = Ok (h', c) ->
  exists f nd, nth_error h b = Some nd /\ c = f b /\ closed h' /\ (exists new, h' = h ++ new) /\
   (List.length h <= c < List.length h')%nat /\
   nth_error h' c = Some (put (rename f nd) (SAttr name) v) /\
   (forall x nx, reaches h (RAddr b) x -> x <> b -> nth_error h x = Some nx ->
      (List.length h <= f x)%nat /\ f x <> c /\ nth_error h' (f x) = Some (rename f nx)) /\
   (forall a na k x, (List.length h <= a)%nat -> nth_error h' a = Some na ->
      In (k, RAddr x) (nd_slots na) -> (List.length h <= x)%nat \/ v = RAddr x).
Proof.
  intros Hc Hb Hv H.
  pose proof (setter_grows _ _ _ _ _ _ Hc Hb Hv H) as (C' & (new' & Hn') & Hc').
  apply setter_inv in H as (h1 & E1 & ->).
  destruct (DC h b Hc Hb) as (new & f & E' & Hf & Hj & Hi). rewrite E1 in E'. injection E' as -> ->.
  destruct (nth_error h b) as [nd|] eqn:Eb; [|apply nth_error_None in Eb; lia].
  exists f, nd. split; [reflexivity|]. split; [reflexivity|]. split; [exact C'|].
  split; [eauto|]. split; [exact Hc'|].
  destruct (Hf b nd (reach_here h b) Eb) as [Hfb Eb'].
  split; [now apply write_same|].
  split.
  - intros x nx Hx Hne Ex. destruct (Hf x nx Hx Ex) as [H1 H2]. split; [exact H1|].
    assert (N : f x <> f b). { intros E. apply Hne. apply Hj; auto. constructor. }
    split; [exact N|]. rewrite write_other by auto. exact H2.
  - intros a na k x Ha Ea Hk. destruct (Nat.eq_dec (f b) a) as [<-|N].
    + rewrite (write_same _ _ _ _ _ Eb') in Ea. injection Ea as <-.
      apply put_in in Hk as [Hk|Hk]; [|auto]. left.
      rewrite nth_error_app2 in Eb' by lia. apply nth_error_In in Eb'.
      apply (Hi _ _ _ Eb' Hk).
    + rewrite write_other in Ea by exact N. rewrite nth_error_app2 in Ea by lia.
      left. apply (Hi _ _ _ (nth_error_In _ _ Ea) Hk).
Qed.

(** The new builder shows what the old one shows, except for the attribute. *)
Lemma setter_shows h b name v h' c n nd : closed h -> (b < List.length h)%nat -> valid h v ->
  nth_error h b = Some nd ->
  (forall k r, In (k, r) (nd_slots nd) -> ~ reaches h r b) ->
  setter dc h b name v = Ok (h', c) ->
  view (S n) h' (RAddr c) =
  TNode (nd_class nd) (map (fun kr =>
     (fst kr, view n h (if slot_eqb (fst kr) (SAttr name) then v else snd kr))) (nd_slots nd)).
Proof.
  intros Hc Hb Hv E Hcyc H.
  destruct (setter_result _ _ _ _ _ _ Hc Hb Hv H) as (f & nd' & E' & Ec & C' & (new & Hn) & Hr & Enc & Hf & _).
  rewrite E in E'. injection E' as <-.
  cbn [view]. rewrite Enc. cbn [put rename nd_class nd_slots]. f_equal. rewrite !map_map.
  apply map_ext_in. intros [k r] Hi. cbn [fst snd].
  destruct (slot_eqb k (SAttr name)); cbn [fst snd]; f_equal.
  - rewrite Hn. now apply view_app.
  - assert (G : forall m r, (forall x, reaches h r x -> reaches h (RAddr b) x /\ x <> b) ->
              view m h' (rename_ref f r) = view m h r).
    { clear n r Hi. induction m as [|m IH]; intros [|w|x] Hx; cbn; try reflexivity.
      destruct (Hx x (reach_here h x)) as [H1 H2].
      assert (Hxv : (x < List.length h)%nat) by (apply (reaches_valid h (RAddr b) x Hc); [exact Hb|exact H1]).
      destruct (nth_error h x) as [nx|] eqn:Ex; [|apply nth_error_None in Ex; lia].
      destruct (Hf x nx H1 H2 Ex) as (_ & _ & Ef). rewrite Ef. cbn [rename nd_class nd_slots].
      f_equal. rewrite map_map. apply map_ext_in. intros [k' r'] Hi'. cbn [fst snd]. f_equal.
      apply IH. intros y Hy. apply Hx. econstructor; eauto. }
    apply G. intros x Hx. split.
    + econstructor; eauto.
    + intros ->. exact (Hcyc k r Hi Hx).
Qed.

(** ** Isolation *)

(** What the new builder reaches is new or reached from the argument. *)
Lemma setter_reaches h b name v h' c x : closed h -> (b < List.length h)%nat -> valid h v ->
  setter dc h b name v = Ok (h', c) -> reaches h' (RAddr c) x ->
  (List.length h <= x)%nat \/ reaches h v x.
Proof.
  intros Hc Hb Hv H Hx.
  destruct (setter_result _ _ _ _ _ _ Hc Hb Hv H) as (f & nd' & E' & Ec & C' & (new & Hn) & Hr & Enc & Hf & Hi).
  clear Ec Enc Hr. remember (RAddr c) as rc eqn:Erc.
  assert (Ha : forall a, rc = RAddr a -> (List.length h <= a)%nat \/ reaches h v a).
  { intros a ->. left. injection Erc as ->.
    destruct (setter_grows _ _ _ _ _ _ Hc Hb Hv H) as (_ & _ & ?). lia. }
  clear Erc. induction Hx as [a|a nd k r x Ea Hk Hx IH]; [auto|].
  apply IH. intros y ->. destruct (Ha a eq_refl) as [Hge|Hre].
  - destruct (Hi a nd k y Hge Ea Hk) as [Hy| ->]; [auto|right; constructor].
  - right. apply (reaches_trans _ _ _ _ Hre).
    assert (Hlt : (a < List.length h)%nat) by exact (reaches_valid _ _ _ Hc Hv Hre).
    rewrite Hn, nth_error_app1 in Ea by exact Hlt.
    econstructor; [exact Ea|exact Hk|constructor].
Qed.

Lemma view_unreached h r a s w n : ~ reaches h r a -> view n (write h a s w) r = view n h r.
Proof.
  intros Hn. apply (view_agree h _ n r (fun x => reaches h r x)).
  - intros x Hx. apply write_other. congruence.
  - intros x nd k y Hx E Hi. apply (reaches_trans _ _ _ _ Hx). econstructor; [exact E|exact Hi|constructor].
  - intros x ->. constructor.
Qed.

Lemma setter_isolated h b name v h' c a s w n : closed h -> (b < List.length h)%nat -> valid h v ->
  setter dc h b name v = Ok (h', c) -> (a < List.length h)%nat -> ~ reaches h v a ->
  view n (write h' a s w) (RAddr c) = view n h' (RAddr c).
Proof.
  intros Hc Hb Hv H Ha Hn. apply view_unreached. intros Hx.
  destruct (setter_reaches _ _ _ _ _ _ _ Hc Hb Hv H Hx) as [Hx'|Hx']; [lia|auto].
Qed.

Lemma old_isolated h b name v h' c a s w n r : closed h -> (b < List.length h)%nat -> valid h v ->
  setter dc h b name v = Ok (h', c) -> valid h r ->
  reaches h' (RAddr c) a -> ~ reaches h v a ->
  view n (write h' a s w) r = view n h r.
Proof.
  intros Hc Hb Hv H Hr Hx Hn.
  destruct (setter_reaches _ _ _ _ _ _ _ Hc Hb Hv H Hx) as [Hx'|Hx']; [|contradiction].
  destruct (setter_grows _ _ _ _ _ _ Hc Hb Hv H) as (C' & (new & ->) & _).
  rewrite view_unreached; [now apply view_app|].
  intros Hre. assert ((a < List.length h)%nat); [|lia].
  clear - Hc Hr Hre. induction Hre as [a|a nd k r x E Hi Hre IH]; [exact Hr|].
  cbn in Hr. rewrite nth_error_app1 in E by exact Hr.
  apply IH. exact (Hc nd k r (nth_error_In _ _ E) Hi).
Qed.
End Steps.

(** ** A deepcopy *)

(** Copies the whole heap; the copies of objects not reached are garbage. *)
Definition copy_all (h : heap) (a : nat) : heap * nat :=
  (h ++ map (rename (fun x => List.length h + x)%nat) h, (List.length h + a)%nat).

Lemma copy_all_copies : copies copy_all.
Proof.
  intros h a Hc Ha. exists (map (rename (fun x => List.length h + x)%nat) h), (fun x => List.length h + x)%nat.
  split; [reflexivity|]. split; [|split].
  - intros x nd Hx E. split; [lia|]. rewrite nth_error_app2 by lia.
    replace (List.length h + x - List.length h)%nat with x by lia. now apply map_nth_error.
  - intros; lia.
  - intros nd k x Hi Hk. apply in_map_iff in Hi as (nd0 & <- & Hi). cbn in Hk.
    apply in_map_iff in Hk as ([k0 [| |y]] & E & Hk); cbn in E; try discriminate.
    injection E as _ <-. pose proof (Hc nd0 k0 (RAddr y) Hi Hk) as Hy. cbn in Hy.
    rewrite map_length. lia.
Qed.
