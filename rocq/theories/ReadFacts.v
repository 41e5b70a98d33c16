(** * ReadFacts: proofs about ReadSpec.v. *)
From Coq Require Import List NArith ZArith Bool String Lia ZifyBool ZifyN.
From Coq Require Import Strings.Byte.
From Verif Require Import Base PyVal BaseFacts B64 Utf8 Utf8Facts Utf8Sound CodecSpec B64Facts B64Round Cbor Parsers Form
  FormFacts Page ReadSpec.
Import ListNotations.
Local Open Scope N_scope.
Local Open Scope list_scope.

(** ** base64 with '=' *)
Lemma read_app val a b : read val (a ++ b) = read val a ++ read val b.
Proof. induction a as [|c a IH]; cbn; [reflexivity|]. destruct (val c); cbn; now rewrite IH. Qed.

(** The same seen from state [q], [p] of the decoder. *)
Definition closed_from (q p : N) (a : pystr) : Prop :=
  let m := (q + N.of_nat (List.length (read b64_val a))) mod 4 in
  m = 3 \/ (m = 2 /\ ((exists a1 a2, a = a1 ++ 61 :: a2 /\ read b64_val a2 = []) \/
                      (read b64_val a = [] /\ p = 1))).
Definition never_from (q p : N) (s : pystr) : Prop :=
  forall a b, s = a ++ 61 :: b -> ~ closed_from q p a.

Lemma never_tail q p c s : never_from q p (c :: s) -> 
  forall q' p', (forall a, closed_from q' p' a -> closed_from q p (c :: a)) -> never_from q' p' s.
Proof. intros H q' p' K a b -> C. exact (H (c :: a) b eq_refl (K a C)). Qed.

Lemma val_lt c v : b64_val c = Some v -> v < 64.
Proof. rewrite std_index. intro H. now apply index_of_lt in H. Qed.
Lemma pad_val : b64_val 61 = None. Proof. reflexivity. Qed.

Lemma closed_skip q p c a : b64_val c = None -> (c = 61 -> q < 2) -> q < 4 -> closed_from q p a -> closed_from q p (c :: a).
Proof.
  unfold closed_from. cbn [read]. intros V Q L. rewrite V. intros [H|[H [(a1 & a2 & -> & H2)|H2]]]; [auto|right; split; [exact H|]..].
  - left. exists (c :: a1), a2. auto.
  - right. exact H2.
Qed.
Lemma closed_symbol q p c a v : q < 4 -> b64_val c = Some v -> closed_from ((q + 1) mod 4) 0 a -> closed_from q p (c :: a).
Proof.
  unfold closed_from. cbn [read]. intros L V. rewrite V. cbn [List.length].
  replace ((q + N.of_nat (S (List.length (read b64_val a)))) mod 4)
    with (((q + 1) mod 4 + N.of_nat (List.length (read b64_val a))) mod 4) by lia.
  intros [H|[H [(a1 & a2 & -> & H2)|[_ H2]]]]; [auto|right; split; [exact H|]|discriminate].
  left. exists (c :: a1), a2. auto.
Qed.
Lemma closed_pad a : closed_from 2 1 a -> closed_from 2 0 (61 :: a).
Proof.
  unfold closed_from. cbn [read]. rewrite pad_val. intros [H|[H [(a1 & a2 & -> & H2)|[H2 _]]]]; [auto|right; split; [exact H|]..].
  - left. exists (61 :: a1), a2. auto.
  - left. exists [], a. auto.
Qed.

Lemma unclosed_skip q p c a : b64_val c = None -> (c = 61 -> q < 2) -> q < 4 -> closed_from q p (c :: a) -> closed_from q p a.
Proof.
  unfold closed_from. cbn [read]. intros V Q L. rewrite V. intros [H|[H [(a1 & a2 & E & H2)|H2]]]; [auto|right; split; [exact H|]..].
  - destruct a1 as [|d a1]; injection E as -> E.
    + subst a2. specialize (Q eq_refl). rewrite H2 in H. cbn in H. exfalso. lia.
    + left. exists a1, a2. auto.
  - right. exact H2.
Qed.
Lemma unclosed_symbol q p c a v : q < 4 -> b64_val c = Some v -> closed_from q p (c :: a) -> closed_from ((q + 1) mod 4) 0 a.
Proof.
  unfold closed_from. cbn [read]. intros L V. rewrite V. cbn [List.length].
  replace ((q + N.of_nat (S (List.length (read b64_val a)))) mod 4)
    with (((q + 1) mod 4 + N.of_nat (List.length (read b64_val a))) mod 4) by lia.
  intros [H|[H [(a1 & a2 & E & H2)|[H2 _]]]]; [auto|right; split; [exact H|]|discriminate].
  destruct a1 as [|d a1]; injection E as -> E; [rewrite pad_val in V; discriminate|]. left. exists a1, a2. auto.
Qed.
Lemma unclosed_pad a : closed_from 2 0 (61 :: a) -> closed_from 2 1 a.
Proof.
  unfold closed_from. cbn [read]. rewrite pad_val. intros [H|[H [(a1 & a2 & E & H2)|[_ H2]]]]; [auto|right; split; [exact H|]|discriminate].
  destruct a1 as [|d a1]; injection E as E; [subst; auto|]. left. exists a1, a2. auto.
Qed.

Ltac four q := assert (q = 0 \/ q = 1 \/ q = 2 \/ q = 3) as [-> | [-> | [-> | ->]]] by lia.

Lemma never_go s : forall q left p acc, q < 4 -> p <= 1 -> never_from q p s ->
  a2b_go s q left p acc = a2b_go (map b64_sym (read b64_val s)) q left 0 acc.
Proof.
  induction s as [|c s IH]; intros q left p acc L LP H; [reflexivity|]. cbn [read].
  destruct (N.eq_dec c 61) as [->|NC].
  - rewrite pad_val. cbn [a2b_go]. cbn [N.eqb Pos.eqb]. four q; cbn [N.leb N.compare Pos.compare Pos.compare_cont].
    + apply IH; [lia|exact LP|]. eapply never_tail; [exact H|]. intros a. apply closed_skip; auto; lia.
    + apply IH; [lia|exact LP|]. eapply never_tail; [exact H|]. intros a. apply closed_skip; auto; lia.
    + assert (p = 0 \/ p = 1) as [-> | ->] by lia; [|exfalso].
      * apply IH; [lia|lia|]. eapply never_tail; [exact H|]. apply closed_pad.
      * apply (H [] s eq_refl). right. cbn. auto.
    + exfalso. apply (H [] s eq_refl). left. reflexivity.
  - cbn [a2b_go]. replace (c =? 61) with false by lia. destruct (b64_val c) as [v|] eqn:V.
    + pose proof (val_lt _ _ V) as LV. cbn [map a2b_go]. rewrite (sym_not_pad v LV), (val_sym v LV).
      four q; cbn [N.eqb Pos.eqb]; apply IH; try lia; (eapply never_tail; [exact H|]); intros a K;
        eapply (closed_symbol _ _ _ _ _ _ V); exact K.
      Unshelve. all: lia.
    + apply IH; [exact L|exact LP|]. eapply never_tail; [exact H|]. intros a. apply closed_skip; auto; lia.
Qed.

Lemma first_go a b : forall q left p acc, q < 4 -> p <= 1 -> closed_from q p a -> never_from q p a ->
  a2b_go (a ++ 61 :: b) q left p acc = a2b_go (map b64_sym (read b64_val a) ++ [61; 61]) q left 0 acc.
Proof.
  induction a as [|c s IH]; intros q left p acc L LP C H; cbn [app read].
  - cbn [a2b_go map app]. cbn [N.eqb Pos.eqb]. unfold closed_from in C. cbn in C. rewrite N.add_0_r in C.
    destruct C as [C|[C [(a1 & a2 & E & _)|[_ ->]]]]; [|destruct a1; discriminate|].
    + assert (q = 3) as -> by lia. replace (4 <=? 3 + (p + 1)) with true by lia. reflexivity.
    + assert (q = 2) as -> by lia. reflexivity.
  - destruct (N.eq_dec c 61) as [->|NC].
    + rewrite pad_val. cbn [a2b_go]. cbn [N.eqb Pos.eqb]. four q; cbn [N.leb N.compare Pos.compare Pos.compare_cont].
      * apply IH; [lia|exact LP|eapply unclosed_skip; [..|exact C]; auto; lia|]. eapply never_tail; [exact H|]. intros a. apply closed_skip; auto; lia.
      * apply IH; [lia|exact LP|eapply unclosed_skip; [..|exact C]; auto; lia|]. eapply never_tail; [exact H|]. intros a. apply closed_skip; auto; lia.
      * assert (p = 0 \/ p = 1) as [-> | ->] by lia; [|exfalso].
        -- apply IH; [lia|lia|now apply unclosed_pad|]. eapply never_tail; [exact H|]. apply closed_pad.
        -- apply (H [] s eq_refl). right. cbn. auto.
      * exfalso. apply (H [] s eq_refl). left. reflexivity.
    + cbn [a2b_go]. replace (c =? 61) with false by lia. destruct (b64_val c) as [v|] eqn:V.
      * pose proof (val_lt _ _ V) as LV. cbn [map app a2b_go]. rewrite (sym_not_pad v LV), (val_sym v LV).
        assert (C' : closed_from ((q + 1) mod 4) 0 s) by (eapply unclosed_symbol; eauto).
        assert (H' : never_from ((q + 1) mod 4) 0 s) by (eapply never_tail; [exact H|]; intros a K; eapply closed_symbol; eauto).
        four q; cbn [N.eqb Pos.eqb]; apply IH; auto; lia.
      * apply IH; [exact L|exact LP|eapply unclosed_skip; [..|exact C]; auto; lia|]. eapply never_tail; [exact H|]. intros a. apply closed_skip; auto; lia.
Qed.

Lemma read_lt s : Forall (fun v => v < 64) (read b64_val s).
Proof.
  induction s as [|c s IH]; cbn; [constructor|]. destruct (b64_val c) eqn:V; [|exact IH].
  constructor; [now apply val_lt in V|exact IH].
Qed.
Lemma from_start a : closed_from 0 0 a <-> Closed b64_val a.
Proof.
  unfold closed_from, Closed. rewrite N.add_0_l.
  replace 3%nat with (N.to_nat 3) by reflexivity. replace 2%nat with (N.to_nat 2) by reflexivity.
  split; (intros [H|[H K]]; [left; lia|right; split; [lia|]]).
  - destruct K as [K|[_ K]]; [exact K|discriminate].
  - left. exact K.
Qed.
Lemma never_start s : never_from 0 0 s <-> NeverClosed b64_val s.
Proof. unfold never_from, NeverClosed. split; intros H a b E K; apply (H a b E); now apply from_start. Qed.

Lemma a2b_never s : NeverClosed b64_val s -> a2b s =
  if (List.length (read b64_val s) mod 4 =? 0)%nat then Ok (data_of (read b64_val s)) else Raise (Py EBinasciiError).
Proof.
  intro H. unfold a2b. rewrite never_go; [|lia|lia|now apply never_start]. now rewrite go_unpadded by apply read_lt.
Qed.
Lemma a2b_first a b : FirstClosed b64_val a -> a2b (a ++ 61 :: b) = Ok (data_of (read b64_val a)).
Proof.
  intros [H K]. unfold a2b. rewrite first_go; [|lia|lia|now apply from_start|now apply never_start].
  change [61; 61] with (repeat 61 2). rewrite go_padded; [|apply read_lt|].
  - destruct H as [->|[-> _]]; reflexivity.
  - intros _. destruct H as [->|[-> _]]; cbn; lia.
Qed.

(** Every text is of one of the two kinds. *)
Lemma tail_pad_dec val a : (exists a1 a2, a = a1 ++ 61 :: a2 /\ read val a2 = []) \/
  ~ (exists a1 a2, a = a1 ++ 61 :: a2 /\ read val a2 = []).
Proof.
  induction a as [|c a IH] using rev_ind; [right; intros (a1 & a2 & E & _); destruct a1; discriminate|].
  destruct (N.eq_dec c 61) as [->|NC]; [left; exists a, []; auto|].
  assert (G : forall a1 a2, a ++ [c] = a1 ++ 61 :: a2 -> exists a2', a2 = a2' ++ [c] /\ a = a1 ++ 61 :: a2').
  { intros a1 a2 E. destruct a2 as [|x a2 _] using rev_ind.
    - apply app_inj_tail in E as [_ E]. congruence.
    - rewrite app_comm_cons, app_assoc in E. apply app_inj_tail in E as [-> ->]. eauto. }
  destruct (val c) as [v|] eqn:V.
  - right. intros (a1 & a2 & E & R). apply G in E as (a2' & -> & _). rewrite read_app in R. cbn in R. rewrite V in R.
    destruct (read val a2'); discriminate.
  - destruct IH as [(a1 & a2 & -> & R)|IH].
    + left. exists a1, (a2 ++ [c]). rewrite <- app_assoc. split; [reflexivity|]. rewrite read_app, R. cbn. now rewrite V.
    + right. intros (a1 & a2 & E & R). apply IH. apply G in E as (a2' & -> & ->). exists a1, a2'. split; [reflexivity|].
      rewrite read_app in R. now apply app_eq_nil in R.
Qed.
Lemma closed_dec val a : Closed val a \/ ~ Closed val a.
Proof.
  unfold Closed. destruct (Nat.eq_dec (List.length (read val a) mod 4) 3) as [E|E]; [auto|].
  destruct (Nat.eq_dec (List.length (read val a) mod 4) 2) as [E2|E2]; [|right; intros [H|[H _]]; contradiction].
  destruct (tail_pad_dec val a) as [H|H]; [auto|right; intros [K|[_ K]]; contradiction].
Qed.
Lemma never_snoc val s : NeverClosed val s -> ~ Closed val s -> NeverClosed val (s ++ [61]).
Proof.
  intros H K a b E. destruct b as [|x b _] using rev_ind.
  - apply app_inj_tail in E as [-> _]. exact K.
  - rewrite app_comm_cons, app_assoc in E. apply app_inj_tail in E as [E _]. eauto.
Qed.
Lemma never_other val s c : NeverClosed val s -> c <> 61 -> NeverClosed val (s ++ [c]).
Proof.
  intros H K a b E. destruct b as [|x b _] using rev_ind.
  - apply app_inj_tail in E as [_ E]. congruence.
  - rewrite app_comm_cons, app_assoc in E. apply app_inj_tail in E as [E _]. eauto.
Qed.
Lemma closed_cases val s : NeverClosed val s \/ exists a b, s = a ++ 61 :: b /\ FirstClosed val a.
Proof.
  induction s as [|c s IH] using rev_ind; [left; intros a b E; destruct a; discriminate|].
  destruct IH as [IH|(a & b & -> & F)]; [|right; exists a, (b ++ [c]); now rewrite <- app_assoc].
  destruct (N.eq_dec c 61) as [->|NC]; [|left; now apply never_other].
  destruct (closed_dec val s) as [C|C]; [right; exists s, []; repeat split; assumption|left; now apply never_snoc].
Qed.

Lemma read_ext v w s : (forall c, v c = w c) -> read v s = read w s.
Proof. intro H. induction s as [|c s IH]; cbn; [reflexivity|]. now rewrite H, IH. Qed.
Lemma closed_std a : Closed std_value a <-> Closed b64_val a.
Proof.
  unfold Closed. rewrite (read_ext std_value b64_val a) by (intro; symmetry; apply std_index).
  split; (intros [H|[H (a1 & a2 & E & R)]]; [now left|right; split; [exact H|]; exists a1, a2; split; [exact E|]]);
    rewrite <- R; apply read_ext; intro; [apply std_index|symmetry; apply std_index].
Qed.
Lemma never_std s : NeverClosed std_value s <-> NeverClosed b64_val s.
Proof. unfold NeverClosed. split; intros H a b E K; apply (H a b E); now apply closed_std. Qed.
Lemma first_std s : FirstClosed std_value s <-> FirstClosed b64_val s.
Proof. unfold FirstClosed. now rewrite closed_std, never_std. Qed.

Lemma read_url s : read b64_val (map from_url s) = read symbol_value s.
Proof. induction s as [|c s IH]; cbn; [reflexivity|]. now rewrite val_from_url, IH. Qed.
Lemma from_url_pad c : from_url c = 61 -> c = 61.
Proof. unfold from_url. destruct (c =? 45) eqn:A; [lia|]. destruct (c =? 95) eqn:B; lia. Qed.
Lemma map_url_split s a b : map from_url s = a ++ 61 :: b ->
  exists a' b', s = a' ++ 61 :: b' /\ a = map from_url a' /\ b = map from_url b'.
Proof.
  intro E. apply map_eq_app in E as (a' & t & -> & <- & E). destruct t as [|c b']; [discriminate|].
  injection E as E <-. apply from_url_pad in E as ->. eauto.
Qed.
Lemma closed_url a : Closed symbol_value a <-> Closed b64_val (map from_url a).
Proof.
  unfold Closed. rewrite read_url. split; (intros [H|[H (a1 & a2 & E & R)]]; [now left|right; split; [exact H|]]).
  - subst a. exists (map from_url a1), (map from_url a2). rewrite map_app, read_url. auto.
  - apply map_url_split in E as (a1' & a2' & -> & -> & ->). exists a1', a2'. rewrite read_url in R. auto.
Qed.
Lemma never_url s : NeverClosed symbol_value s <-> NeverClosed b64_val (map from_url s).
Proof.
  unfold NeverClosed. split; intros H a b E K.
  - apply map_url_split in E as (a' & b' & -> & -> & _). apply (H a' b' eq_refl). now apply closed_url.
  - subst s. apply (H (map from_url a) (map from_url b)); [now rewrite map_app|now apply closed_url].
Qed.

Lemma c45_std_first (a b : pystr) :
  FirstClosed std_value a ->
  bytes_from_base64 (a ++ 61 :: b) =
  if forallb (fun c => c <? 128) (a ++ b) then Ok (data_of (read std_value a)) else Raise (Lib DecodingError).
Proof.
  intro F. unfold bytes_from_base64, b64decode, is_ascii. rewrite !forallb_app. cbn [forallb N.ltb N.compare Pos.compare Pos.compare_cont andb].
  destruct (_ && _)%bool; [|reflexivity].
  rewrite a2b_first by now apply first_std. cbn [catch].
  now rewrite (read_ext std_value b64_val a) by (intro; symmetry; apply std_index).
Qed.
Lemma c45_std_never (s : pystr) :
  NeverClosed std_value s ->
  bytes_from_base64 s =
  if (forallb (fun c => c <? 128) s && (List.length (read std_value s) mod 4 =? 0)%nat)%bool
  then Ok (data_of (read std_value s)) else Raise (Lib DecodingError).
Proof.
  intro F. unfold bytes_from_base64, b64decode, is_ascii. destruct (forallb _ s); [|reflexivity]. cbn [andb].
  rewrite a2b_never by now apply never_std.
  rewrite (read_ext std_value b64_val s) by (intro; symmetry; apply std_index).
  destruct (_ =? _)%nat; reflexivity.
Qed.
Lemma c45_url_first (a b : pystr) :
  FirstClosed symbol_value a ->
  url_base64_decode (a ++ 61 :: b) =
  if forallb (fun c => c <? 128) (a ++ b) then Ok (data_of (read symbol_value a)) else Raise (Py EValueError).
Proof.
  intros [F1 F2]. unfold url_base64_decode, is_ascii. rewrite !forallb_app. cbn [forallb N.ltb N.compare Pos.compare Pos.compare_cont andb].
  rewrite !andb_true_r. destruct (_ && _)%bool; [|reflexivity].
  rewrite <- app_assoc, map_app. cbn [map app]. change (from_url 61) with 61. rewrite a2b_first.
  - now rewrite read_url.
  - split; [now apply closed_url|now apply never_url].
Qed.
Lemma c45_url_never (s : pystr) :
  NeverClosed symbol_value s ->
  url_base64_decode s =
  if forallb (fun c => c <? 128) s then
    if (List.length (read symbol_value s) mod 4 =? 1)%nat then Raise (Py EBinasciiError)
    else Ok (data_of (read symbol_value s))
  else Raise (Py EValueError).
Proof.
  intros F. unfold url_base64_decode, is_ascii. rewrite !forallb_app. cbn [forallb N.ltb N.compare Pos.compare Pos.compare_cont andb].
  rewrite !andb_true_r. destruct (forallb _ s); [|reflexivity].
  rewrite map_app. cbn [map app]. change (from_url 61) with 61. rewrite <- (read_url s).
  apply never_url in F. set (x := map from_url s) in *. clearbody x. clear s.
  assert (R : forall k, read b64_val (x ++ repeat 61 k) = read b64_val x).
  { intro k. rewrite read_app. replace (read b64_val (repeat 61 k)) with (@nil N); [apply app_nil_r|]. now induction k. }
  assert (O : (List.length (read b64_val x) mod 4 = 0 \/ List.length (read b64_val x) mod 4 = 1)%nat ->
               a2b (x ++ [61; 61; 61]) = if (List.length (read b64_val x) mod 4 =? 0)%nat then Ok (data_of (read b64_val x))
                                         else Raise (Py EBinasciiError)).
  { intro M. assert (NC : forall k, NeverClosed b64_val (x ++ repeat 61 k)).
    { induction k as [|k IH]; [now rewrite app_nil_r|]. rewrite <- (Nat.add_1_r k), repeat_app, app_assoc. apply never_snoc; [exact IH|].
      unfold Closed. rewrite R. intros [K|[K _]]; rewrite K in M; destruct M; discriminate. }
    specialize (NC 3%nat). cbn [repeat] in NC. rewrite a2b_never by exact NC. specialize (R 3%nat). cbn [repeat] in R. now rewrite R. }
  assert (List.length (read b64_val x) mod 4 < 4)%nat as L by (apply Nat.mod_upper_bound; lia).
  destruct (List.length (read b64_val x) mod 4)%nat as [|[|[|[|]]]] eqn:M; [| | | |lia].
  - now rewrite O by auto.
  - now rewrite O by auto.
  - cbn [Nat.eqb]. destruct (closed_dec b64_val x) as [C|C]; [now apply (a2b_first x [61; 61])|].
    specialize (R 1%nat). cbn [repeat] in R. rewrite <- R.
    change [61; 61; 61] with ([61] ++ [61; 61]). rewrite app_assoc. apply (a2b_first (x ++ [61]) [61]).
    split; [|now apply never_snoc]. right. rewrite R. split; [exact M|]. exists x, []. auto.
  - cbn [Nat.eqb]. apply (a2b_first x [61; 61]). split; [now left|exact F].
Qed.

(** The groups: '=' after three symbols, after two and another '=', and ignored '='. *)
Example ex_first3 : FirstClosed std_value (lit "AQI").
Proof.
  split; [left; vm_compute; reflexivity|]. intros a b E _.
  assert (I : In 61 (lit "AQI")) by (rewrite E; apply in_elt). vm_compute in I. intuition discriminate.
Qed.
Example ex_first2 : FirstClosed symbol_value (lit "AQ=*").
Proof.
  split.
  - right. split; [vm_compute; reflexivity|]. exists (lit "AQ"), (lit "*"). split; vm_compute; reflexivity.
  - apply (never_other _ [65; 81; 61] 42); [|discriminate]. apply (never_snoc _ [65; 81]).
    + intros a b E _. assert (I : In 61 [65; 81]) by (rewrite E; apply in_elt). cbn in I. intuition discriminate.
    + intros [H|[_ (a1 & a2 & E & _)]]; [vm_compute in H; discriminate|].
      assert (I : In 61 [65; 81]) by (rewrite E; apply in_elt). cbn in I. intuition discriminate.
Qed.
Example ex_never : NeverClosed std_value (lit "=AQ=I") /\ ~ NeverClosed std_value (lit "AQI=").
Proof.
  split.
  - apply (never_other _ [61; 65; 81; 61] 73); [|discriminate]. apply (never_snoc _ [61; 65; 81]).
    + apply (never_other _ [61; 65] 81); [|discriminate]. apply (never_other _ [61] 65); [|discriminate].
      apply (never_snoc _ []); [intros [|] b E; discriminate E|]. intros [H|[H _]]; discriminate H.
    + intros [H|[_ (a1 & a2 & E & R)]]; [vm_compute in H; discriminate|].
      destruct a1 as [|? [|? [|? [|? a1]]]]; try discriminate E. injection E as <-. vm_compute in R. discriminate.
  - intro H. apply (H (lit "AQI") [] eq_refl). left. vm_compute. reflexivity.
Qed.
