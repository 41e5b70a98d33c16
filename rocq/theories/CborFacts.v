(** * CborFacts: prefix property, fuel, round trip. *)
From Coq Require Import List NArith ZArith Bool Lia ZifyBool ZifyNat ZifyN.
From Coq Require Import Strings.Byte.
From Verif Require Import Base PyVal BaseFacts Utf8 Utf8Facts Json Cbor.
Import ListNotations.
Local Open Scope N_scope.
Local Open Scope list_scope.
Ltac Zify.zify_post_hook ::= Z.div_mod_to_equations.

(** Induction over nested values. *)
Section Ind.
Variable P : pyval -> Prop.
Hypothesis HNone : P VNone.
Hypothesis HBool : forall b, P (VBool b).
Hypothesis HInt : forall z, P (VInt z).
Hypothesis HFloat : forall n, P (VFloat n).
Hypothesis HStr : forall s, P (VStr s).
Hypothesis HBytes : forall b, P (VBytes b).
Hypothesis HList : forall l, Forall P l -> P (VList l).
Hypothesis HTuple : forall l, Forall P l -> P (VTuple l).
Hypothesis HDict : forall d, Forall (fun kv => P (fst kv) /\ P (snd kv)) d -> P (VDict d).
Hypothesis HFrozen : forall d, Forall (fun kv => P (fst kv) /\ P (snd kv)) d -> P (VFrozen d).
Hypothesis HOther : forall t n, P (VOther t n).
Fixpoint pyval_ind2 (v : pyval) : P v :=
  let fl := fix fl (l : list pyval) : Forall P l :=
    match l with [] => Forall_nil _ | x :: t => Forall_cons _ (pyval_ind2 x) (fl t) end in
  let fd := fix fd (d : list (pyval * pyval)) : Forall (fun kv => P (fst kv) /\ P (snd kv)) d :=
    match d with
    | [] => Forall_nil _
    | kv :: t => Forall_cons _ (conj (pyval_ind2 (fst kv)) (pyval_ind2 (snd kv))) (fd t)
    end in
  match v with
  | VNone => HNone | VBool b => HBool b | VInt z => HInt z | VFloat n => HFloat n
  | VStr s => HStr s | VBytes b => HBytes b | VList l => HList l (fl l)
  | VTuple l => HTuple l (fl l) | VDict d => HDict d (fd d) | VFrozen d => HFrozen d (fd d)
  | VOther t n => HOther t n
  end.
End Ind.

Lemma wbind_ok {A B} (m : wres A) (k : A -> wres B) b :
  wbind m k = WOk b <-> exists a, m = WOk a /\ k a = WOk b.
Proof.
  destruct m; cbn; split.
  - eauto.
  - intros (a' & E & H). injection E as ->. exact H.
  - discriminate.
  - intros (? & E & _); discriminate.
Qed.
Lemma wcons_ok {A B} (a : A) (m : wres (list A * B)) l r :
  wcons a m = WOk (l, r) <-> exists t, m = WOk (t, r) /\ l = a :: t.
Proof.
  destruct m as [[t r']|e]; cbn; split.
  - intro H; injection H as <- <-. eauto.
  - intros (t' & E & ->). congruence.
  - discriminate.
  - intros (? & ? & _); discriminate.
Qed.

(** ** The decoder reads a prefix *)
Definition suffix (r b : bytes) : Prop := exists p, b = p ++ r.
Lemma suffix_refl b : suffix b b. Proof. exists []; reflexivity. Qed.
Lemma suffix_trans a b c : suffix a b -> suffix b c -> suffix a c.
Proof. intros (p & ->) (q & ->). exists (q ++ p). now rewrite app_assoc. Qed.
Lemma suffix_cons x r b : suffix r b -> suffix r (x :: b).
Proof. intros (p & ->). exists (x :: p). reflexivity. Qed.

Lemma cread_ok n b x r : cread n b = WOk (x, r) <-> b = x ++ r /\ N.of_nat (List.length x) = n.
Proof.
  unfold cread. destruct (N.of_nat (List.length b) <? n) eqn:E.
  - split; [discriminate|]. intros [-> L]. rewrite app_length in E. lia.
  - split.
    + intro H; injection H as <- <-. split; [symmetry; apply take_drop|].
      rewrite take_length. lia.
    + intros [-> L]. rewrite take_app, drop_app by lia. reflexivity.
Qed.
Lemma cread_suffix n b x r : cread n b = WOk (x, r) -> suffix r b.
Proof. intro H. apply cread_ok in H as [-> _]. exists x; reflexivity. Qed.

Lemma clength_suffix sub i b l r : clength sub i b = WOk (l, r) -> suffix r b.
Proof.
  unfold clength. intro H.
  repeat match type of H with (if ?c then _ else _) = _ => destruct c end;
    try discriminate; try (injection H as <- <-; apply suffix_refl);
    apply wbind_ok in H as ([x r'] & H1 & H); injection H as <- <-;
    eapply cread_suffix; exact H1.
Qed.

Lemma cchunks_suffix f mt : forall b cs r, cchunks f mt b = WOk (cs, r) -> suffix r b.
Proof.
  induction f as [|f IH]; intros b cs r H; [discriminate|]. cbn [cchunks] in H.
  destruct b as [|x t]; [discriminate|]. cbv zeta in H. apply suffix_cons.
  destruct (N_of_byte x =? 255); [injection H as <- <-; apply suffix_refl|].
  destruct (_ =? mt); [|discriminate].
  apply wbind_ok in H as ([l r1] & H1 & H). apply clength_suffix in H1.
  destruct l as [l|]; [|discriminate].
  apply wbind_ok in H as ([c r2] & H2 & H). apply cread_suffix in H2.
  apply wcons_ok in H as (tl & H & _). apply IH in H.
  eauto using suffix_trans.
Qed.

Lemma cspecial_suffix sub b v r : cspecial sub b = WOk (v, r) -> suffix r b.
Proof.
  unfold cspecial. intro H.
  repeat match type of H with (if ?c then _ else _) = _ => destruct c end;
    try discriminate; try (injection H as <- <-; apply suffix_refl);
    apply wbind_ok in H as ([x r'] & H1 & H); injection H as <- <-;
    eapply cread_suffix; exact H1.
Qed.

Section Tags.
Variable tags : tagsem.
Local Notation cdec := (Cbor.cdec tags).
Local Notation citems := (Cbor.citems tags).
Local Notation cpairs := (Cbor.cpairs tags).

Lemma cdec_suffix f :
  (forall d imm b v r, cdec f d imm b = WOk (v, r) -> exists x p, b = x :: p ++ r) /\
  (forall d imm n b l r, citems f d imm n b = WOk (l, r) -> suffix r b) /\
  (forall d imm n b acc m r, cpairs f d imm n b acc = WOk (m, r) -> suffix r b).
Proof.
  induction f as [|f (IH1 & IH2 & IH3)]; [repeat split; intros; discriminate|].
  assert (IH1' : forall d imm b v r, cdec f d imm b = WOk (v, r) -> suffix r b).
  { intros. destruct (IH1 _ _ _ _ _ H) as (x & p & ->). exists (x :: p); reflexivity. }
  repeat split.
  - intros d imm b v r H. cbn [Cbor.cdec] in H. destruct b as [|x t]; [discriminate|]. cbv zeta in H.
    cut (suffix r t); [intros (p & ->); eauto|].
    repeat match type of H with (if ?c then _ else _) = _ => destruct c end; try discriminate.
    + apply wbind_ok in H as ([l r1] & H1 & H). destruct l; [|discriminate].
      injection H as <- <-. eapply clength_suffix; eauto.
    + apply wbind_ok in H as ([l r1] & H1 & H). destruct l; [|discriminate].
      injection H as <- <-. eapply clength_suffix; eauto.
    + apply wbind_ok in H as ([l r1] & H1 & H). apply clength_suffix in H1. destruct l.
      * apply wbind_ok in H as ([c r2] & H2 & H). injection H as <- <-.
        apply cread_suffix in H2. eauto using suffix_trans.
      * apply wbind_ok in H as ([c r2] & H2 & H). injection H as <- <-.
        apply cchunks_suffix in H2. eauto using suffix_trans.
    + apply wbind_ok in H as ([l r1] & H1 & H). apply clength_suffix in H1. destruct l.
      * apply wbind_ok in H as ([c r2] & H2 & H). apply wbind_ok in H as (s & _ & H).
        injection H as <- <-. apply cread_suffix in H2. eauto using suffix_trans.
      * apply wbind_ok in H as ([c r2] & H2 & H). apply wbind_ok in H as (s & _ & H).
        injection H as <- <-. apply cchunks_suffix in H2. eauto using suffix_trans.
    + destruct d; [discriminate|].
      apply wbind_ok in H as ([l r1] & H1 & H). apply clength_suffix in H1.
      apply wbind_ok in H as ([c r2] & H2 & H). injection H as <- <-.
      apply IH2 in H2. eauto using suffix_trans.
    + destruct d; [discriminate|].
      apply wbind_ok in H as ([l r1] & H1 & H). apply clength_suffix in H1.
      apply wbind_ok in H as ([c r2] & H2 & H). injection H as <- <-.
      apply IH3 in H2. eauto using suffix_trans.
    + destruct d; [discriminate|].
      apply wbind_ok in H as ([[l|] r1] & H1 & H); [|discriminate]. apply clength_suffix in H1.
      destruct (_ || _); [discriminate|].
      apply wbind_ok in H as ([c r2] & H2 & H). apply wbind_ok in H as (w & _ & H).
      injection H as <- <-. apply IH1' in H2. eauto using suffix_trans.
    + eapply cspecial_suffix; eauto.
  - intros d imm n b l r H. cbn [Cbor.citems] in H. destruct n as [n|].
    + destruct (n =? 0); [injection H as <- <-; apply suffix_refl|].
      apply wbind_ok in H as ([v r1] & H1 & H). apply wcons_ok in H as (tl & H & _).
      apply IH1' in H1. apply IH2 in H. eauto using suffix_trans.
    + apply wbind_ok in H as ([v r1] & H1 & H). apply IH1' in H1.
      destruct (is_break v); [injection H as <- <-; assumption|].
      apply wcons_ok in H as (tl & H & _). apply IH2 in H. eauto using suffix_trans.
  - intros d imm n b acc m r H. cbn [Cbor.cpairs] in H. cbv zeta in H.
    assert (Pair : forall n',
      wbind (cdec f d true b) (fun '(k, r) =>
        if match n with None => is_break k | Some _ => false end then WOk (acc, r)
        else wbind (cdec f d imm r) (fun '(v, r1) =>
             cpairs f d imm n' r1 (dict_set k v acc))) = WOk (m, r) -> suffix r b).
    { intros n' Q. apply wbind_ok in Q as ([k r1] & H1 & Q). apply IH1' in H1.
      match type of Q with (if ?c then _ else _) = _ => destruct c end.
      - injection Q as <- <-. assumption.
      - apply wbind_ok in Q as ([v r2] & H2 & Q). apply IH1' in H2. apply IH3 in Q.
        eauto using suffix_trans. }
    destruct n as [n|].
    + destruct (n =? 0); [injection H as <- <-; apply suffix_refl|]. eapply Pair; eauto.
    + eapply Pair; eauto.
Qed.

Lemma cbor_load_tags_prefix depth b v r :
  cbor_load_tags tags depth b = WOk (v, r) -> exists p, b = p ++ r.
Proof.
  intro H. apply (proj1 (cdec_suffix _)) in H as (x & p & ->). exists (x :: p). reflexivity.
Qed.
End Tags.
Lemma cbor_load_prefix depth b v r : cbor_load depth b = WOk (v, r) -> exists p, b = p ++ r.
Proof. apply cbor_load_tags_prefix. Qed.

(** ** Round trip *)

(** Scalars: what the model allows as map keys. *)
Definition cscalar (v : pyval) : Prop :=
  match v with VNone | VBool _ | VInt _ | VFloat _ | VStr _ | VBytes _ => True | _ => False end.

Fixpoint distinct_keys (d : pydict) : Prop :=
  match d with
  | [] => True
  | (k, _) :: t => (forall k' v', In (k', v') t -> py_eq k k' = false) /\ distinct_keys t
  end.

(** Values that decode to themselves: no tuples, scalar distinct keys, nesting at most
    [depth]. *)
Inductive cplain : nat -> pyval -> Prop :=
| cp_scalar n v : cscalar v -> cplain n v
| cp_list n l : Forall (cplain n) l -> cplain (S n) (VList l)
| cp_dict n d : distinct_keys d -> Forall (fun kv => cscalar (fst kv)) d ->
    Forall (fun kv => cplain n (snd kv)) d -> cplain (S n) (VDict d).

Lemma chead_spec mt n i r : mt < 8 -> n < 18446744073709551616 ->
  exists x t, chead mt n = x :: t /\ N_of_byte x / 32 = mt /\
    clength (N_of_byte x mod 32) i (t ++ r) = WOk (Some n, r).
Proof.
  intros Hm Hn. unfold chead.
  assert (L : forall k x w, (x < 256 ^ N.of_nat w) -> N.of_nat w = k ->
    wbind (cread k (N_to_be w x ++ r)) (fun '(y, q) => WOk (Some (be_to_N y), q)) = WOk (Some x, r)).
  { intros k x w Hx Hk.
    rewrite (proj2 (cread_ok k (N_to_be w x ++ r) (N_to_be w x) r)).
    - cbn [wbind]. rewrite be_to_N_to_be by assumption. reflexivity.
    - split; [reflexivity|]. now rewrite N_to_be_length. }
  destruct (n <? 24) eqn:E0.
  { eexists _, []. split; [reflexivity|]. rewrite N_of_byte_of_N. split; [lia|].
    unfold clength. replace ((mt * 32 + n) mod 256 mod 32) with n by lia. rewrite E0. reflexivity. }
  destruct (n <? 256) eqn:E1; [|destruct (n <? 65536) eqn:E2; [|destruct (n <? 4294967296) eqn:E3]].
  - eexists _, _. split; [reflexivity|]. rewrite N_of_byte_of_N. split; [lia|].
    replace ((mt * 32 + 24) mod 256 mod 32) with 24 by lia. apply L; [|reflexivity].
    change (256 ^ N.of_nat 1) with 256. lia.
  - eexists _, _. split; [reflexivity|]. rewrite N_of_byte_of_N. split; [lia|].
    replace ((mt * 32 + 25) mod 256 mod 32) with 25 by lia. apply L; [|reflexivity].
    change (256 ^ N.of_nat 2) with 65536. lia.
  - eexists _, _. split; [reflexivity|]. rewrite N_of_byte_of_N. split; [lia|].
    replace ((mt * 32 + 26) mod 256 mod 32) with 26 by lia. apply L; [|reflexivity].
    change (256 ^ N.of_nat 4) with 4294967296. lia.
  - eexists _, _. split; [reflexivity|]. rewrite N_of_byte_of_N. split; [lia|].
    replace ((mt * 32 + 27) mod 256 mod 32) with 27 by lia. apply L; [|reflexivity].
    change (256 ^ N.of_nat 8) with 18446744073709551616. lia.
Qed.

Lemma chead_len mt n : (0 < List.length (chead mt n))%nat.
Proof.
  unfold chead. repeat match goal with |- context [if ?c then _ else _] => destruct c end;
    cbn; lia.
Qed.

Lemma oapp_some a b c : oapp a b = Some c <-> exists x y, a = Some x /\ b = Some y /\ c = x ++ y.
Proof.
  destruct a, b; cbn; split; try discriminate; try (intros (? & ? & ? & ? & _); discriminate).
  - intro H; injection H as <-. eauto.
  - intros (? & ? & E1 & E2 & ->). injection E1 as <-; injection E2 as <-. reflexivity.
Qed.

(** Encodings of sequences. *)
Fixpoint dumps_list (l : list pyval) : option bytes :=
  match l with [] => Some [] | x :: t => oapp (cbor_dumps x) (dumps_list t) end.
Fixpoint dumps_dict (d : pydict) : option bytes :=
  match d with
  | [] => Some []
  | (k, x) :: t => oapp (cbor_dumps k) (oapp (cbor_dumps x) (dumps_dict t))
  end.
Lemma dumps_VList l :
  cbor_dumps (VList l) = if u64 (N.of_nat (List.length l))
    then oapp (Some (chead 4 (N.of_nat (List.length l)))) (dumps_list l) else None.
Proof. reflexivity. Qed.
Lemma dumps_VDict d :
  cbor_dumps (VDict d) = if u64 (N.of_nat (List.length d))
    then oapp (Some (chead 5 (N.of_nat (List.length d)))) (dumps_dict d) else None.
Proof. reflexivity. Qed.

Lemma dict_set_fresh k v acc :
  (forall k' v', In (k', v') acc -> py_eq k' k = false) -> dict_set k v acc = acc ++ [(k, v)].
Proof.
  induction acc as [|[k' v'] t IH]; cbn; intro H; [reflexivity|].
  rewrite (H k' v') by auto. rewrite IH by eauto. reflexivity.
Qed.

Section Tags.
Variable tags : tagsem.
Local Notation cdec := (Cbor.cdec tags).
Local Notation citems := (Cbor.citems tags).
Local Notation cpairs := (Cbor.cpairs tags).

Lemma cdec_head f d imm mt n r :
  mt < 8 -> n < 18446744073709551616 ->
  cdec (S f) d imm (chead mt n ++ r) =
  if mt =? 0 then WOk (VInt (Z.of_N n), r)
  else if mt =? 1 then WOk (VInt (-1 - Z.of_N n)%Z, r)
  else if mt =? 2 then wbind (cread n r) (fun '(c, r2) => WOk (VBytes c, r2))
  else if mt =? 3 then
    wbind (cread n r) (fun '(c, r2) => wbind (ctext c) (fun s => WOk (VStr s, r2)))
  else if mt =? 4 then
    match d with
    | O => WRaise ERecursionError
    | S d => wbind (citems f d imm (Some n) r) (fun '(vs, r2) =>
             WOk (if imm then VTuple vs else VList vs, r2))
    end
  else if mt =? 5 then
    match d with
    | O => WRaise ERecursionError
    | S d => wbind (cpairs f d imm (Some n) r []) (fun '(m, r2) =>
             WOk (if imm then VFrozen m else VDict m, r2))
    end
  else cdec (S f) d imm (chead mt n ++ r).
Proof.
  intros Hm Hn.
  destruct (chead_spec mt n false r Hm Hn) as (x & t & E & M & L1).
  destruct (chead_spec mt n true r Hm Hn) as (x' & t' & E' & M' & L2).
  rewrite E in E'. injection E' as <- <-. rewrite E. cbn [app].
  destruct (mt =? 0) eqn:M0; [|destruct (mt =? 1) eqn:M1; [|destruct (mt =? 2) eqn:M2;
    [|destruct (mt =? 3) eqn:M3; [|destruct (mt =? 4) eqn:M4; [|destruct (mt =? 5) eqn:M5;
      [|reflexivity]]]]]];
    cbn [Cbor.cdec]; cbv zeta; rewrite M, ?M0, ?M1, ?M2, ?M3, ?M4, ?M5, ?L1, ?L2; cbn [wbind].
  - reflexivity.
  - reflexivity.
  - reflexivity.
  - reflexivity.
  - destruct d; reflexivity.
  - destruct d; reflexivity.
Qed.

Lemma scalar_roundtrip v b : cscalar v -> cbor_dumps v = Some b ->
  forall f d imm rest, cdec (S f) d imm (b ++ rest) = WOk (v, rest).
Proof.
  intros S E f d imm rest.
  destruct v as [|bb|z|bits|s|bs|l|l|dd|dd|t n]; try destruct S; cbn [cbor_dumps] in E.
  - injection E as <-. reflexivity.
  - destruct bb; injection E as <-; reflexivity.
  - destruct (0 <=? z)%Z eqn:Z0.
    + unfold u64 in E. destruct (_ <? _) eqn:U; [|discriminate]. injection E as <-.
      rewrite cdec_head by lia. cbn [N.eqb]. rewrite Z2N.id by lia. reflexivity.
    + unfold u64 in E. destruct (_ <? _) eqn:U; [|discriminate]. apply Some_inj in E; subst b.
      rewrite cdec_head by lia. change (1 =? 0) with false. change (1 =? 1) with true.
      cbv iota. rewrite Z2N.id by lia. do 3 f_equal. lia.
  - unfold u64 in E. destruct (_ <? _) eqn:U; [|discriminate]. apply Some_inj in E; subst b.
    cbn [app Cbor.cdec]. cbv zeta. change (N_of_byte xfb) with 251. cbn [N.eqb N.div N.modulo].
    change (251 / 32) with 7. change (251 mod 32) with 27. cbv iota beta.
    change (7 =? 0) with false. change (7 =? 1) with false. change (7 =? 2) with false.
    change (7 =? 3) with false. change (7 =? 4) with false. change (7 =? 5) with false.
    change (7 =? 6) with false. cbv iota. unfold cspecial. change (27 <? 20) with false.
    change (27 =? 20) with false. change (27 =? 21) with false. change (27 =? 22) with false.
    change (27 =? 23) with false. change (27 =? 24) with false. change (27 =? 25) with false.
    change (27 =? 26) with false. change (27 =? 27) with true. cbv iota.
    rewrite (proj2 (cread_ok 8 (N_to_be 8 bits ++ rest) (N_to_be 8 bits) rest)).
    2:{ split; [reflexivity|]. now rewrite N_to_be_length. }
    cbn [wbind]. rewrite be_to_N_to_be; [reflexivity|].
    change (256 ^ N.of_nat 8) with 18446744073709551616. lia.
  - destruct (utf8_encode s) as [bs|] eqn:U8; [|discriminate].
    unfold u64 in E. destruct (_ <? _) eqn:U; [|discriminate]. apply Some_inj in E; subst b.
    rewrite <- app_assoc, cdec_head by lia.
    change (3 =? 0) with false. change (3 =? 1) with false. change (3 =? 2) with false.
    change (3 =? 3) with true. cbv iota.
    rewrite (proj2 (cread_ok _ (bs ++ rest) bs rest)) by auto. cbn [wbind].
    unfold ctext. rewrite (utf8_roundtrip _ _ U8). reflexivity.
  - unfold u64 in E. destruct (_ <? _) eqn:U; [|discriminate]. apply Some_inj in E; subst b.
    rewrite <- app_assoc, cdec_head by lia.
    change (2 =? 0) with false. change (2 =? 1) with false. change (2 =? 2) with true. cbv iota.
    rewrite (proj2 (cread_ok _ (bs ++ rest) bs rest)) by auto. reflexivity.
Qed.

Lemma dumps_len v b : cbor_dumps v = Some b -> (0 < List.length b)%nat.
Proof.
  destruct v as [|bb|z|bits|s|bs|l|l|dd|dd|t n]; cbn [cbor_dumps]; intro E.
  - injection E as <-. cbn; lia.
  - destruct bb; injection E as <-; cbn; lia.
  - destruct (0 <=? z)%Z; destruct (u64 _); try discriminate; injection E as <-; apply chead_len.
  - destruct (u64 _); try discriminate; injection E as <-. cbn; lia.
  - destruct (utf8_encode s); try discriminate. destruct (u64 _); try discriminate; injection E as <-.
    rewrite app_length. pose proof (chead_len 3 (N.of_nat (List.length a))). lia.
  - destruct (u64 _); try discriminate; injection E as <-.
    rewrite app_length. pose proof (chead_len 2 (N.of_nat (List.length bs))). lia.
  - destruct (u64 _); try discriminate. apply oapp_some in E as (x & y & E1 & _ & ->).
    injection E1 as <-. rewrite app_length. pose proof (chead_len 4 (N.of_nat (List.length l))). lia.
  - destruct (u64 _); try discriminate. apply oapp_some in E as (x & y & E1 & _ & ->).
    injection E1 as <-. rewrite app_length. pose proof (chead_len 4 (N.of_nat (List.length l))). lia.
  - destruct (u64 _); try discriminate. apply oapp_some in E as (x & y & E1 & _ & ->).
    injection E1 as <-. rewrite app_length. pose proof (chead_len 5 (N.of_nat (List.length dd))). lia.
  - discriminate.
  - discriminate.
Qed.

Lemma cbor_roundtrip v : forall d b, cplain d v -> cbor_dumps v = Some b ->
  forall f rest, (2 * List.length b + 1 <= f)%nat -> cdec f d false (b ++ rest) = WOk (v, rest).
Proof.
  induction v as [|bb|z|bits|s|bs|l IH|l IH|dd IH|dd IH|t n] using pyval_ind2; intros d b HP E f rest Hf.
  1-6: destruct f as [|f]; [lia|]; apply scalar_roundtrip; [exact I|assumption].
  - (* list *)
    inversion HP as [? ? S|d' ? HL|]; subst; [destruct S|]. clear HP.
    rewrite dumps_VList in E. unfold u64 in E. destruct (_ <? _) eqn:U; [|discriminate].
    apply oapp_some in E as (h & bl & E1 & E2 & ->). injection E1 as <-.
    destruct f as [|f]; [lia|]. rewrite <- app_assoc, cdec_head by lia.
    change (4 =? 0) with false. change (4 =? 1) with false. change (4 =? 2) with false.
    change (4 =? 3) with false. change (4 =? 4) with true. cbv iota.
    assert (Hf' : (2 * List.length bl + 2 <= f)%nat).
    { rewrite app_length in Hf. pose proof (chead_len 4 (N.of_nat (List.length l))). lia. }
    clear Hf U. assert (Q : citems f d' false (Some (N.of_nat (List.length l))) (bl ++ rest) = WOk (l, rest)).
    { revert bl f rest E2 Hf'. induction l as [|x t IHl]; intros bl f rest E2 Hf'.
      - injection E2 as <-. destruct f; [lia|]. reflexivity.
      - apply oapp_some in E2 as (bx & bt & Ex & Et & ->).
        inversion IH as [|? ? IHx IHt]; subst. inversion HL as [|? ? Hx Ht]; subst.
        destruct f as [|f]; [lia|]. cbn [Cbor.citems].
        replace (N.of_nat (List.length (x :: t)) =? 0) with false by (cbn [List.length]; lia).
        pose proof (dumps_len _ _ Ex). rewrite app_length in Hf'.
        rewrite <- app_assoc, (IHx _ _ Hx Ex) by lia. cbn [wbind].
        replace (N.of_nat (List.length (x :: t)) - 1) with (N.of_nat (List.length t)) by (cbn [List.length]; lia).
        rewrite (IHl IHt Ht bt f rest Et) by lia. reflexivity. }
    rewrite Q. reflexivity.
  - inversion HP as [? ? S| |]; subst. destruct S.
  - (* dict *)
    inversion HP as [? ? S| |d' ? HD HK HV]; subst; [destruct S|]. clear HP.
    rewrite dumps_VDict in E. unfold u64 in E. destruct (_ <? _) eqn:U; [|discriminate].
    apply oapp_some in E as (h & bl & E1 & E2 & ->). injection E1 as <-.
    destruct f as [|f]; [lia|]. rewrite <- app_assoc, cdec_head by lia.
    change (5 =? 0) with false. change (5 =? 1) with false. change (5 =? 2) with false.
    change (5 =? 3) with false. change (5 =? 4) with false. change (5 =? 5) with true. cbv iota.
    assert (Hf' : (2 * List.length bl + 2 <= f)%nat).
    { rewrite app_length in Hf. pose proof (chead_len 5 (N.of_nat (List.length dd))). lia. }
    clear Hf U.
    assert (Q : forall acc, (forall k v k' v', In (k, v) acc -> In (k', v') dd -> py_eq k k' = false) ->
      cpairs f d' false (Some (N.of_nat (List.length dd))) (bl ++ rest) acc = WOk (acc ++ dd, rest)).
    { revert bl f rest E2 Hf'. induction dd as [|[k x] t IHl]; intros bl f rest E2 Hf' acc HA.
      - injection E2 as <-. destruct f; [lia|]. rewrite app_nil_r. reflexivity.
      - cbn [dumps_dict] in E2. apply oapp_some in E2 as (bk & bt' & Ek & E2 & ->).
        apply oapp_some in E2 as (bx & bt & Ex & Et & ->).
        inversion IH as [|? ? [IHk IHx] IHt]; subst. cbn [fst snd] in *.
        inversion HK as [|? ? Kx Kt]; subst. inversion HV as [|? ? Hx Ht]; subst.
        cbn [fst snd] in *. destruct HD as [HDx HDt].
        destruct f as [|f]; [lia|]. cbn [Cbor.cpairs]. cbv zeta.
        replace (N.of_nat (List.length ((k, x) :: t)) =? 0) with false by (cbn [List.length]; lia).
        pose proof (dumps_len _ _ Ek). pose proof (dumps_len _ _ Ex). rewrite !app_length in Hf'.
        destruct f as [|f]; [lia|].
        rewrite <- !app_assoc, (scalar_roundtrip _ _ Kx Ek). cbn [wbind].
        rewrite (IHx _ _ Hx Ex) by lia. cbn [wbind].
        replace (N.of_nat (List.length ((k, x) :: t)) - 1) with (N.of_nat (List.length t)) by (cbn [List.length]; lia).
        rewrite dict_set_fresh.
        2:{ intros k' v' Hin. eapply HA; [exact Hin|]. left; reflexivity. }
        rewrite (IHl IHt HDt Kt Ht bt (S f) rest Et).
        { rewrite <- app_assoc. reflexivity. }
        { lia. }
        intros k1 v1 k2 v2 Hin1 Hin2. apply in_app_or in Hin1 as [Hin1|[Hin1|[]]].
        + eapply HA; [exact Hin1|right; exact Hin2].
        + injection Hin1 as <- <-. eapply HDx; exact Hin2. }
    rewrite (Q []) by (intros ? ? ? ? []). reflexivity.
  - inversion HP as [? ? S| |]; subst. destruct S.
  - inversion HP as [? ? S| |]; subst. destruct S.
Qed.

Theorem cbor_load_tags_dumps depth v b rest :
  cplain depth v -> cbor_dumps v = Some b -> cbor_load_tags tags depth (b ++ rest) = WOk (v, rest).
Proof.
  intros HP E. unfold cbor_load_tags. apply cbor_roundtrip; try assumption.
  rewrite app_length. lia.
Qed.
End Tags.
Theorem cbor_load_dumps depth v b rest :
  cplain depth v -> cbor_dumps v = Some b -> cbor_load depth (b ++ rest) = WOk (v, rest).
Proof. apply cbor_load_tags_dumps. Qed.
