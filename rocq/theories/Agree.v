(** * Agree: proofs about AgreeSpec.v. *)
From Coq Require Import List NArith ZArith Bool String Lia.
From Verif Require Import Base BaseFacts PyVal B64 Utf8 Types World Parsers Crypto Backends Spec OptionSpec Cbor App AppSpec
  AppFacts AppHistory AppAccept AppTheorems AppConc AppConcSpec AppConcFacts AppConcInv AppConcTheorems AppConcCount AgreeSpec.
Import ListNotations.
Local Open Scope list_scope.

Section Lists.
Context {A : Type}.
Implicit Types tr : list (moment A).

Lemma at_server_app tr1 tr2 : at_server (tr1 ++ tr2) = at_server tr1 ++ at_server tr2.
Proof. induction tr1 as [|[a|adb cdj] t IH]; cbn; now rewrite ?IH. Qed.
Lemma at_server_split tr l1 a l2 : at_server tr = l1 ++ a :: l2 ->
  exists tr1 tr2, tr = tr1 ++ Server a :: tr2 /\ at_server tr1 = l1 /\ at_server tr2 = l2.
Proof.
  revert l1. induction tr as [|[b|adb cdj] t IH]; intros l1 H; cbn in H.
  - now destruct l1.
  - destruct l1 as [|c l1]; cbn in H; injection H as -> H.
    + exists [], t. auto.
    + apply IH in H as (tr1 & tr2 & -> & <- & <-). exists (Server c :: tr1), tr2. auto.
  - apply IH in H as (tr1 & tr2 & -> & <- & <-). exists (Sign adb cdj :: tr1), tr2. auto.
Qed.
Lemma signatures_in tr adb cdj : In (Sign adb cdj) tr <-> In (adb, cdj) (signatures tr).
Proof.
  induction tr as [|[b|adb' cdj'] t IH]; cbn; [tauto|..].
  - rewrite <- IH. split; [intros [|]; [discriminate|auto]|auto].
  - rewrite <- IH. split; intros [Q|]; auto; injection Q as <- <-; auto.
Qed.
End Lists.

Lemma tail_32 {A} (a b c d : list A) : List.length b = List.length d -> a ++ b = c ++ d -> a = c /\ b = d.
Proof.
  intros L Q. assert (K : List.length a = List.length c).
  { apply (f_equal (@List.length A)) in Q. rewrite !app_length in Q. lia. }
  revert c Q K. induction a as [|x a IH]; intros [|y c] Q K; cbn in *; try discriminate; auto.
  injection Q as -> Q. injection K as K. destruct (IH c Q K) as [-> ->]. auto.
Qed.

Lemma named (W : World) s c o tb cdj : ClientDataSpec W s c o tb cdj -> Names W cdj c.
Proof. intros (text & d & ch & org & H1 & H2 & _ & H3 & H4 & _). exists text, d, ch. auto. Qed.

(** The signed message is the one that arrived. *)
Lemma was_signed {A} (arrives : A -> option (chance * request)) W k (tr tr1 tr2 : list (moment A)) a x n id cdj adb sig :
  hash_32 W -> Unforged arrives W k tr -> NoCollision arrives W tr ->
  tr = tr1 ++ Server a :: tr2 -> arrives a = Some x -> Presents W (snd x) n id cdj adb sig ->
  SignatureSpec W k sig (adb ++ w_sha256 W cdj) -> In (Sign adb cdj) tr1.
Proof.
  intros H32 UF NC TR AR P S. destruct (UF _ _ _ _ _ _ _ _ _ TR AR P S) as (adb' & cdj' & I & Q).
  apply tail_32 in Q as [-> Q]; [|now rewrite !H32].
  rewrite (NC a x n id cdj adb sig adb cdj') in I; auto.
  - rewrite TR. apply in_or_app. right. now left.
  - rewrite TR. apply in_or_app. now left.
Qed.

Section OneByOne.
Variable W : World.
Variable E : appenv.

Lemma issued_more l l' n c id t : Issued W E l n c id t -> Issued W E (l ++ l') n c id t.
Proof.
  intros (l1 & y & v & ((l2 & ->) & A) & R). exists l1, y, v. split; [|exact R]. split; [|exact A].
  exists (l2 ++ l'). now rewrite <- app_assoc.
Qed.
Lemma issued_same l n c id t n' id' t' : Issued W E l n c id t -> Issued W E l n' c id' t' ->
  id = id' /\ t = t'.
Proof.
  intros H H'. apply issued_row in H as (h & H1 & H2 & H3). apply issued_row in H' as (h' & H1' & H2' & H3').
  apply chal_by_id_in in H1 as [I1 <-]. apply chal_by_id_in in H1' as [I1' <-].
  assert (h = h') as <-.
  { eapply (NoDup_map_eq hr_request); [apply (con_chal_request _ (after_consistent W E l))|..]; eauto. congruence. }
  split; congruence.
Qed.

Lemma agreement depth tr tr1 x tr2 n n0 id k cdj adb sig :
  converts E -> decodes_cbor W depth -> 2 <= depth -> hash_32 W ->
  tr = tr1 ++ Server x :: tr2 ->
  Unforged one_by_one W k tr -> NoCollision one_by_one W tr -> Unpredicted (sent_one W E) (sent_one W E) W tr ->
  RegisteredKey W E (at_server tr1) n0 id k ->
  Presents W (snd x) n id cdj adb sig -> answer W E (at_server tr1) x = Success ->
  n = n0 /\
  exists ta y tb tc c cid v m,
    tr1 = ta ++ Server y :: tb ++ Sign adb cdj :: tc /\
    Asks (snd y) m /\ answer W E (at_server ta) y = Options cid v /\ ch_challenge (fst y) = c /\
    (ch_clock (fst x) - ch_clock (fst y) <= 60000)%Z /\
    ClientDataSpec W "webauthn.get" c app_origin None cdj /\
    exists ad, AuthDataSpec W app_rp_id false None adb ad.
Proof.
  intros CV DC LD H32 TR UF NC UP RK P H. pose proof P as (i & cr & uh & AU & ID & RE).
  destruct (proj1 (login_exact W E depth _ x i n cr CV DC LD AU) H) as
    (cid & m & c & t & hd & k' & cdj' & adb' & sig' & uh' & ad & I1 & I2 & I3 & I4 & I5 & I6 & I7 & I8 & I9 & _).
  rewrite I6 in RE. injection RE as -> -> -> ->. rewrite ID in I5.
  destruct (registered_unique W E _ _ _ _ _ _ I5 RK) as [-> ->]. split; [reflexivity|].
  assert (S : In (Sign adb cdj) tr1) by (eapply was_signed; eauto; reflexivity).
  apply in_split in S as (t0 & tc & ->).
  assert (S0 : sent_one W E (at_server t0) c).
  { eapply (UP t0 adb cdj (tc ++ Server x :: tr2) c); [rewrite TR, <- app_assoc; reflexivity|now apply (named _ _ _ _ _ _ I7)|].
    exists m, cid, t. rewrite TR, at_server_app. now apply issued_more. }
  destruct S0 as (m' & cid' & t' & S0).
  rewrite at_server_app in I2. pose proof (issued_more _ (at_server (Sign adb cdj :: tc)) _ _ _ _ S0) as S1.
  destruct (issued_same _ _ _ _ _ _ _ _ I2 S1) as [<- <-].
  destruct S0 as (l1 & y & v & ((l2 & L) & A) & AS & C & T).
  apply at_server_split in L as (ta & tb & -> & <- & _).
  exists ta, y, tb, tc, c, cid, v, m'. split; [rewrite <- app_assoc; reflexivity|].
  split; [exact AS|]. split; [exact A|]. split; [exact C|]. split; [rewrite T; lia|]. split; [exact I7|]. now exists ad.
Qed.

Lemma accepted_once tr id p p' adb adb' : AcceptedAt W E tr id p adb -> AcceptedAt W E tr id p' adb' ->
  counter_of adb = counter_of adb' -> p = p'.
Proof.
  assert (G : forall tr1 x e y n cdj adb sig n' cdj' adb' sig', Presents W (snd x) n id cdj adb sig -> answer W E (at_server tr1) x = Success ->
     Presents W (snd y) n' id cdj' adb' sig' -> answer W E (at_server (tr1 ++ Server x :: e)) y = Success ->
     counter_of adb = counter_of adb' -> False).
  { intros tr1 x e y n cdj a sig n' cdj' a' sig' (i & cr & uh & A1 & A2 & A3) H (i' & cr' & uh' & A1' & A2' & A3') H' C.
    rewrite at_server_app in H'. cbn [at_server] in H'.
    eapply (c56_login_once W E (at_server tr1) (at_server e) x y); eauto; [congruence|]. rewrite C. apply N.le_refl. }
  intros (tr1 & x & tr2 & n & cdj & sig & -> & -> & P & H) (tr1' & x' & tr2' & n' & cdj' & sig' & Q & -> & P' & H') C.
  apply app_cons_cases in Q as [(-> & Q & _)|[(e & ->)|(e & ->)]]; [reflexivity|exfalso..]; eauto.
Qed.

Lemma matching_signatures depth tr n id k (ps : list nat) :
  converts E -> decodes_cbor W depth -> 2 <= depth -> hash_32 W ->
  Unforged one_by_one W k tr -> NoCollision one_by_one W tr ->
  RegisteredKey W E (at_server tr) n id k ->
  NoDup ps -> (forall p, In p ps -> exists adb, AcceptedAt W E tr id p adb) ->
  List.length ps <= List.length (signatures tr).
Proof.
  intros CV DC LD H32 UF NC RK ND AC.
  assert (X : exists l, NoDup l /\ List.length l = List.length ps /\
                 forall b, In b l -> (exists p, In p ps /\ AcceptedAt W E tr id p b) /\ In b (map fst (signatures tr))).
  { induction ND as [|p ps F ND IH]; [exists []; repeat split; [constructor|destruct H..]|].
    destruct IH as (l & L1 & L2 & L3); [intros q I; apply AC; now right|].
    destruct (AC p (or_introl eq_refl)) as (adb & AP). exists (adb :: l). split; [|split].
    - constructor; [|exact L1]. intros I. destruct (L3 _ I) as ((p' & J1 & J2) & _).
      now rewrite (accepted_once _ _ _ _ _ _ AP J2 eq_refl) in F.
    - cbn. now rewrite L2.
    - intros b [<-|I].
      + split; [exists p; split; [now left|exact AP]|].
        destruct AP as (tr1 & x & tr2 & m & cdj & sig & TR & _ & P & H).
        pose proof P as (i & cr & uh & AU & ID & RE).
        destruct (proj1 (login_exact W E depth _ x i m cr CV DC LD AU) H) as
          (cid & m' & c & t & hd & k' & cdj' & adb' & sig' & uh' & ad & I1 & I2 & I3 & I4 & I5 & I6 & I7 & I8 & I9 & _).
        rewrite I6 in RE. injection RE as -> -> -> ->. rewrite ID in I5.
        assert (k = k') as <-.
        { rewrite TR, at_server_app in RK. now destruct (c59_unique W E _ _ _ _ _ _ _ I5 RK). }
        assert (S : In (Sign adb cdj) tr1) by (eapply was_signed; eauto; reflexivity).
        apply in_map_iff. exists (adb, cdj). split; [reflexivity|]. apply signatures_in. rewrite TR. apply in_or_app. now left.
      + destruct (L3 _ I) as ((p' & J1 & J2) & J3). split; [|exact J3]. exists p'. split; [now right|exact J2]. }
  destruct X as (l & L1 & L2 & L3). rewrite <- L2, <- (map_length fst (signatures tr)).
  apply NoDup_incl_length; [exact L1|]. intros b I. now apply L3.
Qed.
End OneByOne.

Section Shared.
Variable W : World.
Variable E : appenv.

Lemma arrived l j x t : nth_error (sv_threads (Served W E l)) j = Some (x, t) ->
  exists l1 l2, l = l1 ++ Arrive x :: l2.
Proof.
  revert j x t. induction l as [|e l IH] using rev_ind; intros j x t N.
  - now destruct j.
  - assert (G : (exists l1 l2, l = l1 ++ Arrive x :: l2) -> exists l1 l2, l ++ [e] = l1 ++ Arrive x :: l2).
    { intros (l1 & l2 & ->). exists l1, (l2 ++ [e]). now rewrite <- app_assoc. }
    rewrite served_snoc in N. destruct e as [y|i|i].
    + cbn [happen sv_threads] in N. destruct (Nat.lt_ge_cases j (List.length (sv_threads (Served W E l)))) as [L|L].
      * rewrite nth_error_app1 in N by exact L. eauto.
      * rewrite nth_error_app2 in N by exact L. destruct (j - List.length (sv_threads (Served W E l))) as [|m]; cbn in N.
        -- injection N as -> _. exists l, []. reflexivity.
        -- now destruct m.
    + destruct (proceed_cases W E (Served W E l) i) as [->|(y & f & g & t' & d & H1 & _ & ->)] in N |- *; [eauto|].
      cbn [sv_threads] in N. rewrite nth_replace in N. destruct (Nat.eqb_spec i j) as [->|_]; [|eauto].
      rewrite H1 in N. injection N as <- _. eauto.
    + destruct (fail_cases W E (Served W E l) i) as [->|(y & f & g & H1 & ->)] in N |- *; [eauto|].
      cbn [sv_threads] in N. rewrite nth_replace in N. destruct (Nat.eqb_spec i j) as [->|_]; [|eauto].
      rewrite H1 in N. injection N as <- _. eauto.
Qed.

Lemma drawn_same l n c id t n' id' t' :
  DrawnChallenge (Served W E l) n c id t -> DrawnChallenge (Served W E l) n' c id' t' -> id = id' /\ t = t'.
Proof.
  intros (j & y & th & h & _ & _ & _ & _ & H1 & <- & H2 & <- & _) (j' & y' & th' & h' & _ & _ & _ & _ & H1' & <- & H2' & <- & _).
  assert (h = h') as ->; [|auto].
  eapply (NoDup_map_eq hr_request); [apply (c73_consistent W E l)|assumption|assumption|congruence].
Qed.
Lemma sent_more l l' n c id t : SentChallenge (Served W E l) n c id t -> SentChallenge (Served W E (l ++ l')) n c id t.
Proof.
  intros (j & y & v & R & H). exists j, y, v. split; [|exact H].
  unfold Served, happen_all. rewrite fold_left_app. now apply replied_all.
Qed.

Lemma accepted_key_unique l n id k n' k' : AcceptedKey W (Served W E l) n id k -> AcceptedKey W (Served W E l) n' id k' ->
  n = n' /\ k = k'.
Proof.
  intros (j & y & i & cr & R & G & I & K) (j' & y' & i' & cr' & R' & G' & I' & K').
  assert (j = j') as <- by (eapply (c73_once W E l); eauto; congruence).
  red in R, R'. rewrite R in R'. injection R' as <-.
  destruct (registers_fun _ _ _ _ _ _ _ _ G G') as (_ & <- & <-). split; [reflexivity|]. eapply attested_key_unique; eauto.
Qed.

Lemma shared_signed depth tr j x n n0 id k cdj adb sig :
  converts E -> decodes_cbor W depth -> 2 <= depth -> hash_32 W ->
  Unforged arriving W k tr -> NoCollision arriving W tr ->
  AcceptedKey W (Served W E (at_server tr)) n0 id k ->
  Presents W (snd x) n id cdj adb sig -> Replied (Served W E (at_server tr)) j x Success ->
  exists tr1 tr2, tr = tr1 ++ Server (Arrive x) :: tr2 /\ In (Sign adb cdj) tr1.
Proof.
  intros CV DC LD H32 UF NC AK P R. pose proof P as (i & cr & uh & AU & ID & RE).
  destruct (shared_login W E depth _ j x i n cr CV DC LD R AU) as
    (cid & m & c & t & hd & k' & cdj' & adb' & sig' & uh' & ad & I1 & I2 & I3 & I4 & I5 & I6 & I7 & I8 & I9 & _).
  rewrite I6 in RE. injection RE as -> -> -> ->. rewrite ID in I5.
  destruct (accepted_key_unique _ _ _ _ _ _ I5 AK) as [-> ->].
  destruct (arrived _ _ _ _ R) as (l1 & l2 & L). apply at_server_split in L as (tr1 & tr2 & TR & _).
  exists tr1, tr2. split; [exact TR|]. eapply was_signed; eauto. reflexivity.
Qed.

Lemma shared_agreement depth tr j x n n0 id k cdj adb sig :
  converts E -> decodes_cbor W depth -> 2 <= depth -> hash_32 W ->
  Unforged arriving W k tr -> NoCollision arriving W tr -> Unpredicted (drawn_shared W E) (sent_shared W E) W tr ->
  AcceptedKey W (Served W E (at_server tr)) n0 id k ->
  Presents W (snd x) n id cdj adb sig -> Replied (Served W E (at_server tr)) j x Success ->
  n = n0 /\
  exists ta tb tc c cid t m,
    tr = ta ++ Sign adb cdj :: tb ++ Server (Arrive x) :: tc /\
    SentChallenge (Served W E (at_server ta)) m c cid t /\ (ch_clock (fst x) - t <= 60000)%Z /\
    ClientDataSpec W "webauthn.get" c app_origin None cdj /\
    exists ad, AuthDataSpec W app_rp_id false None adb ad.
Proof.
  intros CV DC LD H32 UF NC UP AK P R.
  destruct (shared_signed depth tr j x n n0 id k cdj adb sig CV DC LD H32 UF NC AK P R) as (tr1 & tr2 & TR & S).
  pose proof P as (i & cr & uh & AU & ID & RE).
  destruct (shared_login W E depth _ j x i n cr CV DC LD R AU) as
    (cid & m & c & t & hd & k' & cdj' & adb' & sig' & uh' & ad & I1 & I2 & I3 & I4 & I5 & I6 & I7 & I8 & I9 & _).
  rewrite I6 in RE. injection RE as -> -> -> ->. rewrite ID in I5.
  destruct (accepted_key_unique _ _ _ _ _ _ I5 AK) as [-> ->]. split; [reflexivity|].
  apply in_split in S as (ta & tb & ->).
  assert (TR' : tr = ta ++ Sign adb cdj :: tb ++ Server (Arrive x) :: tr2) by (rewrite TR, <- app_assoc; reflexivity).
  destruct (UP _ _ _ _ c TR') as (m' & cid' & t' & S0); [now apply (named _ _ _ _ _ _ I7)|now exists m, cid, t|].
  assert (Q : cid = cid' /\ t = t').
  { eapply (drawn_same (at_server tr)); [exact I2|]. apply c73_sent. rewrite TR', at_server_app. apply sent_more. exact S0. }
  destruct Q as [<- <-].
  exists ta, tb, tr2, c, cid, t, m'. split; [exact TR'|]. split; [exact S0|]. split; [exact I3|]. split; [exact I7|]. now exists ad.
Qed.

Lemma exclusive_once l j j' x x' n n' id cdj adb sig cdj' adb' sig' : ExclusiveFor W E id l ->
  Replied (Served W E l) j x Success -> Replied (Served W E l) j' x' Success ->
  Presents W (snd x) n id cdj adb sig -> Presents W (snd x') n' id cdj' adb' sig' ->
  counter_of adb = counter_of adb' -> j = j'.
Proof.
  intros EX R R' (i & cr & uh & AU & ID & RE) (i' & cr' & uh' & AU' & ID' & RE') C.
  rewrite <- ID in EX. eapply (c74_once_for W E l j j' x x'); eauto; [congruence| |].
  - do 4 eexists. split; [exact RE|reflexivity].
  - do 4 eexists. split; [exact RE'|exact C].
Qed.

Lemma shared_matching depth tr n id k (js : list nat) :
  converts E -> decodes_cbor W depth -> 2 <= depth -> hash_32 W ->
  Unforged arriving W k tr -> NoCollision arriving W tr -> ExclusiveFor W E id (at_server tr) ->
  AcceptedKey W (Served W E (at_server tr)) n id k ->
  NoDup js ->
  (forall j, In j js -> exists x m cdj adb sig, Replied (Served W E (at_server tr)) j x Success /\
     Presents W (snd x) m id cdj adb sig) ->
  List.length js <= List.length (signatures tr).
Proof.
  intros CV DC LD H32 UF NC EX AK ND AC.
  assert (X : exists l, NoDup l /\ List.length l = List.length js /\
    forall b, In b l -> (exists j x m cdj sig, In j js /\ Replied (Served W E (at_server tr)) j x Success /\
                          Presents W (snd x) m id cdj b sig) /\ In b (map fst (signatures tr))).
  { induction ND as [|j js F ND IH]; [exists []; repeat split; [constructor|destruct H..]|].
    destruct IH as (l & L1 & L2 & L3); [intros q I; apply AC; now right|].
    destruct (AC j (or_introl eq_refl)) as (x & m & cdj & adb & sig & R & P). exists (adb :: l). split; [|split].
    - constructor; [|exact L1]. intros I. destruct (L3 _ I) as ((j' & x' & m' & cdj' & sig' & J1 & J2 & J3) & _).
      now rewrite (exclusive_once _ _ _ _ _ _ _ _ _ _ _ _ _ _ EX R J2 P J3 eq_refl) in F.
    - cbn. now rewrite L2.
    - intros b [<-|I].
      + split; [exists j, x, m, cdj, sig; split; [now left|auto]|].
        destruct (shared_signed depth tr j x m n id k cdj adb sig CV DC LD H32 UF NC AK P R) as (tr1 & tr2 & TR & S).
        apply in_map_iff. exists (adb, cdj). split; [reflexivity|]. apply signatures_in. rewrite TR. apply in_or_app. now left.
      + destruct (L3 _ I) as ((j' & x' & m' & cdj' & sig' & J1 & J2 & J3) & J4). split; [|exact J4].
        exists j', x', m', cdj', sig'. split; [now right|auto]. }
  destruct X as (l & L1 & L2 & L3). rewrite <- L2, <- (map_length fst (signatures tr)).
  apply NoDup_incl_length; [exact L1|]. intros b I. now apply L3.
Qed.
End Shared.
