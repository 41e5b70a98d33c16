(** * WriteFacts: proofs about WriteSpec.v. *)
From Coq Require Import List NArith ZArith Bool String Lia ZifyBool ZifyN.
From Coq Require Import Strings.Byte.
From Verif Require Import Base BaseFacts B64Facts Utf8 Utf8Sound CodecSpec JsonSpec Dumps DumpsFacts Form FormFacts Page WriteSpec.
Import ListNotations.
Local Open Scope N_scope.
Local Open Scope list_scope.

(** ** Forms *)
Lemma plain_safe n : form_safe n = existsb (N.eqb n) form_plain.
Proof.
  destruct (N.ltb_spec n 128) as [L|L].
  - assert (G : forall k, (k < 128)%nat -> form_safe (N.of_nat k) = existsb (N.eqb (N.of_nat k)) form_plain).
    { intro k. do 128 (destruct k as [|k]; [intros _; vm_compute; reflexivity|]). lia. }
    specialize (G (N.to_nat n) ltac:(lia)). now rewrite N2Nat.id in G.
  - replace (form_safe n) with false by (unfold form_safe; lia). symmetry. apply not_true_is_false. intro H.
    apply existsb_exists in H as (c & I & E). apply N.eqb_eq in E as <-.
    assert (F : Forall (fun c => c < 128) form_plain) by (repeat constructor).
    rewrite Forall_forall in F. specialize (F n I). cbn in F. lia.
Qed.
Lemma plain_iff n : form_safe n = true <-> In n form_plain.
Proof.
  rewrite plain_safe, existsb_exists. split; [intros (c & I & E); apply N.eqb_eq in E; now subst|].
  intro I. exists n. split; [exact I|apply N.eqb_refl].
Qed.
Lemma upper_digit n : n < 16 -> form_hex n = nth (N.to_nat n) (lit "0123456789ABCDEF") 0.
Proof.
  intro L. assert (G : forall k, (k < 16)%nat -> form_hex (N.of_nat k) = nth k (lit "0123456789ABCDEF") 0).
  { intro k. do 16 (destruct k as [|k]; [reflexivity|]). lia. }
  specialize (G (N.to_nat n) ltac:(lia)). now rewrite N2Nat.id in G.
Qed.
Lemma lower_digit n : n < 16 -> hex_digit n = nth (N.to_nat n) (lit "0123456789abcdef") 0.
Proof.
  intro L. assert (G : forall k, (k < 16)%nat -> hex_digit (N.of_nat k) = nth k (lit "0123456789abcdef") 0).
  { intro k. do 16 (destruct k as [|k]; [reflexivity|]). lia. }
  specialize (G (N.to_nat n) ltac:(lia)). now rewrite N2Nat.id in G.
Qed.
Lemma split16 n h l : n = 16 * h + l -> l < 16 -> n / 16 = h /\ n mod 16 = l.
Proof. intros -> L. split; symmetry; [apply N.div_unique with (r := l)|apply N.mod_unique with (q := h)]; lia. Qed.
Lemma octets_written b : forall s, Octets b s <-> flat_map form_octet b = s.
Proof.
  induction b as [|x b IH]; intro s; cbn [flat_map].
  - split; [inversion 1; reflexivity|intros <-; constructor].
  - pose proof (N_of_byte_lt x) as B. split.
    + inversion 1 as [|b' s' H1|x' b' s' I H1|x' h l b' s' I N2 E L1 L2 H1]; subst; apply IH in H1 as <-; unfold form_octet; cbv zeta.
      * reflexivity.
      * destruct (N.eqb_spec (N_of_byte x) 32) as [Q|Q].
        -- exfalso. rewrite Q in I. apply plain_iff in I. discriminate.
        -- apply plain_iff in I. now rewrite I.
      * destruct (N.eqb_spec (N_of_byte x) 32) as [Q|Q].
        -- exfalso. apply N2. rewrite <- (byte_of_N_of_byte x), Q. reflexivity.
        -- destruct (form_safe (N_of_byte x)) eqn:F; [apply plain_iff in F; contradiction|].
           destruct (split16 _ _ _ E L2) as [-> ->]. rewrite !upper_digit by assumption. reflexivity.
    + intros <-. specialize (proj2 (IH _) eq_refl) as O. unfold form_octet. cbv zeta.
      destruct (N.eqb_spec (N_of_byte x) 32) as [Q|Q].
      * assert (x = x20) as -> by now rewrite <- (byte_of_N_of_byte x), Q. now constructor.
      * destruct (form_safe (N_of_byte x)) eqn:F; cbn [app].
        -- constructor; [now apply plain_iff|exact O].
        -- rewrite !upper_digit by (try apply N.mod_lt; try apply N.div_lt_upper_bound; lia).
           apply oc_hex; try assumption; try lia.
           ++ rewrite <- plain_iff. congruence.
           ++ intros ->. apply Q. reflexivity.
Qed.
Lemma form_text_iff t s : Scalars t -> (FormText t s <-> form_text t = s).
Proof.
  intro H. destruct (utf8_encode_total t H) as (b & E). unfold FormText, form_text. rewrite E. split.
  - intros (b' & E' & O). injection E' as <-. now apply octets_written.
  - intro O. exists b. split; [reflexivity|]. now apply octets_written.
Qed.
Lemma form_written ps : Forall (fun p => Scalars (fst p) /\ Scalars (snd p)) ps ->
  forall s, FormWritten ps s <-> form_encode ps = s.
Proof.
  unfold form_encode. induction 1 as [|[k v] ps [H1 H2] F IH]; intro s.
  - split; [inversion 1; reflexivity|intros <-; constructor].
  - cbn [fst snd] in *. destruct ps as [|p ps].
    + cbn [map join]. unfold form_pair. cbn [fst snd]. split.
      * inversion 1 as [|? ? s1 s2 A B|]; subst. apply form_text_iff in A as <-, B as <-; auto.
      * intros <-. constructor; now apply form_text_iff.
    + cbn [map]. rewrite join_cons. unfold form_pair at 1. cbn [fst snd app]. split.
      * inversion 1 as [| |? ? ? ? s1 s2 s' A B C]; subst. apply form_text_iff in A as <-, B as <-; auto. apply IH in C as <-. reflexivity.
      * intros <-. apply fw_more; try now apply form_text_iff. now apply IH.
Qed.
Example ex_form_written :
  FormWritten [(lit "a b", lit "x&y=%~"); ([233], [])] (lit "a+b=x%26y%3D%25%7E&%C3%A9=").
Proof. apply form_written; [repeat constructor; intros; discriminate|vm_compute; reflexivity]. Qed.

(** ** JSON texts *)
Lemma escaped_iff u s : u < 65536 -> (EscapedUnit u s <-> u_escape u = s).
Proof.
  intro L. unfold EscapedUnit, u_escape. split.
  - intros (a & b & c & d & A & B & C & D & -> & ->).
    assert (Q1 : (4096 * a + 256 * b + 16 * c + d) / 4096 = a) by (symmetry; apply N.div_unique with (r := 256 * b + 16 * c + d); lia).
    assert (Q2 : (4096 * a + 256 * b + 16 * c + d) / 256 = 16 * a + b) by (symmetry; apply N.div_unique with (r := 16 * c + d); lia).
    assert (Q3 : (4096 * a + 256 * b + 16 * c + d) / 16 = 16 * (16 * a + b) + c) by (symmetry; apply N.div_unique with (r := d); lia).
    assert (Q4 : (4096 * a + 256 * b + 16 * c + d) mod 16 = d) by (symmetry; apply N.mod_unique with (q := 16 * (16 * a + b) + c); lia).
    rewrite Q1, Q2, Q3, Q4. rewrite (N.mod_small a) by lia.
    destruct (split16 _ _ _ (eq_refl (16 * a + b)) B) as [_ ->]. destruct (split16 _ _ _ (eq_refl (16 * (16 * a + b) + c)) C) as [_ ->].
    rewrite !lower_digit by assumption. reflexivity.
  - intros <-. exists (u / 4096), (u / 256 mod 16), (u / 16 mod 16), (u mod 16).
    assert (A : u / 4096 < 16) by (apply N.div_lt_upper_bound; lia).
    rewrite (N.mod_small (u / 4096)) by exact A.
    split; [exact A|]. do 3 (split; [apply N.mod_lt; lia|]). split.
    + replace (u / 4096) with (u / 16 / 16 / 16) by (rewrite !N.div_div by lia; reflexivity).
      replace (u / 256) with (u / 16 / 16) by (rewrite !N.div_div by lia; reflexivity).
      pose proof (N.div_mod u 16 ltac:(lia)). pose proof (N.div_mod (u / 16) 16 ltac:(lia)). pose proof (N.div_mod (u / 16 / 16) 16 ltac:(lia)).
      lia.
    + cbn [map]. rewrite !lower_digit by (try exact A; apply N.mod_lt; lia). reflexivity.
Qed.
Lemma lead_iff u : is_high u = true <-> Lead u. Proof. unfold is_high, Lead. lia. Qed.
Lemma trail_iff u : is_low u = true <-> Trail u. Proof. unfold is_low, Trail. lia. Qed.
Lemma short_cases u : (exists c, In (u, c) short_escapes /\ quote_unit u = [92; c]) \/
  (~ In u (map fst short_escapes) /\ quote_unit u = if u <? 32 then u_escape u else [u]).
Proof.
  unfold quote_unit, short_escapes. cbn [map fst In].
  destruct (N.eqb_spec u 34) as [->|]; [left; exists 34; split; [cbn; tauto|reflexivity]|].
  destruct (N.eqb_spec u 92) as [->|]; [left; exists 92; split; [cbn; tauto|reflexivity]|].
  destruct (N.eqb_spec u 8) as [->|]; [left; exists 98; split; [cbn; tauto|reflexivity]|].
  destruct (N.eqb_spec u 12) as [->|]; [left; exists 102; split; [cbn; tauto|reflexivity]|].
  destruct (N.eqb_spec u 10) as [->|]; [left; exists 110; split; [cbn; tauto|reflexivity]|].
  destruct (N.eqb_spec u 13) as [->|]; [left; exists 114; split; [cbn; tauto|reflexivity]|].
  destruct (N.eqb_spec u 9) as [->|]; [left; exists 116; split; [cbn; tauto|reflexivity]|].
  right. split; [|reflexivity]. lia.
Qed.
Lemma short_det u c c' : In (u, c) short_escapes -> In (u, c') short_escapes -> c = c'.
Proof.
  cbn. intros H K. repeat destruct H as [H|H]; try contradiction; injection H as <- <-;
    repeat destruct K as [K|K]; try contradiction; try discriminate; now injection K.
Qed.
Lemma short_in u c : In (u, c) short_escapes -> In u (map fst short_escapes).
Proof. intro H. change u with (fst (u, c)). now apply in_map. Qed.
Lemma short_plain u c : In (u, c) short_escapes -> ~ Lead u /\ ~ Trail u.
Proof. unfold Lead, Trail. cbn. intro H. repeat destruct H as [H|H]; try contradiction; injection H as <- <-; lia. Qed.
Lemma quote_units_cons u t : quote_units (u :: t) =
  if is_high u then
    match t with
    | v :: t' => if is_low v then u :: v :: quote_units t' else u_escape u ++ quote_units t
    | [] => u_escape u
    end
  else if is_low u then u_escape u ++ quote_units t else quote_unit u ++ quote_units t.
Proof. reflexivity. Qed.
Lemma quoted_sound t s : Forall (fun u => u < 65536) t -> Quoted t s -> quote_units t = s.
Proof.
  intros F H. revert F. induction H as [|u v t s A B H IH|u t e s A B E H IH|u t e s A E H IH|u c t s I H IH|u t e s L N E H IH|u t s L N A B H IH];
    intro F; [reflexivity|..]; inversion F as [|? ? F1 F2]; subst; rewrite quote_units_cons.
  - apply lead_iff in A. apply trail_iff in B. rewrite A, B. inversion F2; subst. now rewrite IH.
  - apply lead_iff in A. rewrite A. apply escaped_iff in E as <-; [|exact F1]. destruct t as [|v t'].
    + rewrite <- (IH F2). cbn. now rewrite ?app_nil_r.
    + destruct (is_low v) eqn:V; [exfalso; apply (B v t' eq_refl); now apply trail_iff|]. now rewrite IH.
  - assert (is_high u = false) as -> by (unfold is_high; unfold Trail in A; lia). apply trail_iff in A. rewrite A.
    apply escaped_iff in E as <-; [|exact F1]. now rewrite IH.
  - destruct (short_plain u c I) as [A B]. rewrite <- lead_iff in A. rewrite <- trail_iff in B.
    apply not_true_is_false in A, B. rewrite A, B, IH by exact F2.
    destruct (short_cases u) as [(c' & I' & ->)|[N _]]; [|now apply short_in in I].
    now rewrite (short_det u c c' I I').
  - assert (is_high u = false) as -> by (unfold is_high; lia). assert (is_low u = false) as -> by (unfold is_low; lia).
    destruct (short_cases u) as [(c' & I' & _)|[_ ->]]; [now apply short_in in I'|].
    apply escaped_iff in E as <-; [|exact F1]. replace (u <? 32) with true by lia. now rewrite IH.
  - rewrite <- lead_iff in A. rewrite <- trail_iff in B. apply not_true_is_false in A, B. rewrite A, B, IH by exact F2.
    destruct (short_cases u) as [(c' & I' & _)|[_ ->]]; [now apply short_in in I'|]. now replace (u <? 32) with false by lia.
Qed.
Lemma quoted_total n : forall t, (List.length t <= n)%nat -> Forall (fun u => u < 65536) t -> Quoted t (quote_units t).
Proof.
  induction n as [|n IH]; intros [|u t] L F; cbn [List.length] in L; try (constructor; fail); [lia|].
  inversion F as [|? ? F1 F2]; subst. rewrite quote_units_cons.
  assert (Q : Quoted t (quote_units t)) by (apply IH; [lia|exact F2]).
  assert (E : EscapedUnit u (u_escape u)) by now apply escaped_iff.
  destruct (is_high u) eqn:A.
  - apply lead_iff in A. destruct t as [|v t'].
    + rewrite <- (app_nil_r (u_escape u)). apply qt_lead; [exact A|discriminate|exact E|constructor].
    + destruct (is_low v) eqn:B.
      * apply trail_iff in B. apply qt_pair; auto. inversion F2; subst. apply IH; [cbn [List.length] in L; lia|assumption].
      * apply qt_lead; auto. intros ? ? Q' T. injection Q' as <- <-. apply trail_iff in T. congruence.
  - assert (A' : ~ Lead u) by (rewrite <- lead_iff; congruence). destruct (is_low u) eqn:B.
    + apply trail_iff in B. now apply qt_trail.
    + assert (B' : ~ Trail u) by (rewrite <- trail_iff; congruence).
      destruct (short_cases u) as [(c & I & ->)|[N ->]]; [now apply (qt_short u c)|].
      destruct (N.ltb_spec u 32); [now apply qt_control|now apply qt_plain].
Qed.
Lemma quoted t s : Forall (fun u => u < 65536) t -> (Quoted t s <-> quote_units t = s).
Proof. intro F. split; [now apply quoted_sound|intros <-; now apply (quoted_total (List.length t))]. Qed.
Example ex_quoted : Quoted [97; 34; 9; 1; 55357; 56832; 55357; 233] ([97; 92; 34; 92; 116] ++ lit "\u0001" ++ [55357; 56832] ++ lit "\ud83d" ++ [233]).
Proof. apply quoted; [repeat constructor|vm_compute; reflexivity]. Qed.

(** ** JSON.stringify *)
Lemma decimal_snoc s n : Decimal s n -> forall t c, s = t ++ [c] -> Digit c /\ Decimal t (n / 10) /\ c = 48 + n mod 10.
Proof.
  intros H t c E. destruct H as [|s' n' c' H1 D].
  - now destruct t.
  - apply app_inj_tail in E as [<- <-]. unfold Digit in *. split; [exact D|].
    assert (Q : (10 * n' + (c' - 48)) / 10 = n') by (symmetry; apply N.div_unique with (r := c' - 48); lia).
    assert (M : (10 * n' + (c' - 48)) mod 10 = c' - 48) by (symmetry; apply N.mod_unique with (q := n'); lia).
    rewrite Q, M. split; [exact H1|lia].
Qed.
Lemma decimal_none n : Decimal [] n -> n = 0.
Proof. intro H. remember [] as s eqn:E. destruct H as [|s n c H D]; [reflexivity|]. now destruct s. Qed.
Lemma lead_positive c t n : Decimal (c :: t) n -> 49 <= c -> 1 <= n.
Proof.
  revert n. induction t as [|d t IH] using rev_ind; intros n H L.
  - destruct (decimal_snoc _ _ H [] c eq_refl) as (_ & _ & E). pose proof (N.mod_le n 10 ltac:(lia)). lia.
  - destruct (decimal_snoc _ _ H (c :: t) d eq_refl) as (_ & D & _). specialize (IH _ D L).
    pose proof (N.mul_div_le n 10 ltac:(lia)). lia.
Qed.
(** Digits without leading zeros; none for 0. *)
Definition Leading (s : list N) : Prop := s = [] \/ exists c t, s = c :: t /\ 49 <= c.
Lemma leading_front s c : Leading (s ++ [c]) -> Leading s.
Proof.
  intros [E|(x & t & E & L)]; [now destruct s|]. destruct s as [|y s]; [now left|].
  right. injection E as -> _. eauto.
Qed.
Lemma leading_unique s : forall n t, Leading s -> Leading t -> Decimal s n -> Decimal t n -> s = t.
Proof.
  induction s as [|c s IH] using rev_ind; intros n t LS LT DS DT.
  - destruct LT as [->|(c & t' & -> & L)]; [reflexivity|].
    apply decimal_none in DS as ->. pose proof (lead_positive _ _ _ DT L). lia.
  - destruct (decimal_snoc _ _ DS s c eq_refl) as (_ & D1 & E1).
    destruct t as [|d t _] using rev_ind.
    + exfalso. apply decimal_none in DT as ->.
      destruct LS as [Q|(x & y & Q & L)]; [now destruct s|]. rewrite Q in DS.
      pose proof (lead_positive _ _ _ DS L). lia.
    + destruct (decimal_snoc _ _ DT t d eq_refl) as (_ & D2 & E2).
      f_equal; [|congruence]. apply (IH (n / 10)); auto; eapply leading_front; eauto.
Qed.
Lemma decimal_unique s t n : IntPart s -> IntPart t -> Decimal s n -> Decimal t n -> s = t.
Proof.
  assert (Z : forall n, Decimal [48] n -> n = 0).
  { intros m H. destruct (decimal_snoc _ _ H [] 48 eq_refl) as (_ & D & M). apply decimal_none in D.
    pose proof (N.div_mod m 10 ltac:(lia)). lia. }
  intros [->|(c & s' & -> & L & _)] [->|(d & t' & -> & M & _)] A B; [reflexivity| | |].
  - apply Z in A as ->. pose proof (lead_positive _ _ _ B ltac:(lia)). lia.
  - apply Z in B as ->. pose proof (lead_positive _ _ _ A ltac:(lia)). lia.
  - eapply leading_unique; eauto; right; do 2 eexists; (split; [reflexivity|lia]).
Qed.
Lemma commas_join ts s : Commas ts s <-> join [44] ts = s.
Proof.
  revert s. induction ts as [|t [|u ts] IH]; intro s.
  - split; [inversion 1; reflexivity|intros <-; constructor].
  - split; [inversion 1; reflexivity|intros <-; constructor].
  - rewrite join_cons. cbn [app]. split.
    + inversion 1 as [| |? ? ? s1 C]; subst. apply IH in C. f_equal. f_equal. exact C.
    + intros <-. constructor. now apply IH.
Qed.
Section Values.
Variable P : jsval -> Prop.
Hypothesis H0 : forall v, (forall l, v <> JsArr l) -> (forall m, v <> JsObj m) -> P v.
Hypothesis HA : forall l, Forall P l -> P (JsArr l).
Hypothesis HO : forall m, Forall (fun p => P (snd p)) m -> P (JsObj m).
Fixpoint jsval_rect' (v : jsval) : P v.
Proof.
  destruct v; try (apply H0; discriminate).
  - apply HA. induction l as [|x l IH]; constructor; [apply jsval_rect'|exact IH].
  - apply HO. induction m as [|[k x] m IH]; constructor; [apply jsval_rect'|exact IH].
Defined.
End Values.
Section Browser.
Variable B : browser.
Definition members_text :=
  fix members (m : list (jstring * jsval)) := match m with
                         | [] => []
                         | (k, x) :: t => if is_undefined x then members t
                                          else (quote_string k ++ 58 :: stringify B x) :: members t
                         end.
Lemma stringify_obj m : stringify B (JsObj m) = 123 :: join [44] (members_text m) ++ [125].
Proof. reflexivity. Qed.
Lemma stringified_total v : Units16 v -> Stringified (br_text B) v (stringify B v).
Proof.
  induction v as [v A O|l IH|m IH] using jsval_rect'; intro U.
  - destruct v as [| |[]|[|p|p]|bits|s|l|m|b]; try (now constructor); try (now destruct (A l)); try (now destruct (O m)).
    + apply (st_natural _ 0); [left; reflexivity|]. apply (dec_snoc [] 0 48); [constructor|unfold Digit; lia].
    + cbn [stringify to_text]. destruct (dec_text_spec (N.pos p)) as (D & I & _).
      apply (st_natural _ (N.pos p)); assumption.
    + cbn [stringify to_text]. destruct (dec_text_spec (N.pos p)) as (D & I & _). now constructor.
    + cbn [stringify to_text]. destruct (N.eqb_spec (bits / 2 ^ 52 mod 2048) 2047); now constructor.
    + cbn [stringify]. inversion U; subst. constructor. now apply quoted.
  - inversion U as [| | | | | | |? F|]; subst. cbn [stringify]. apply (st_array _ l (map (stringify B) l)); [|now apply commas_join].
    clear U. induction IH; cbn [map]; inversion F; subst; constructor; auto.
  - inversion U as [| | | | | | | |? F1 F2]; subst. rewrite stringify_obj. apply (st_object _ m (members_text m)); [|now apply commas_join].
    clear U. induction IH as [|[k x] m X IH IH']; cbn [members_text]; [constructor|]. inversion F1; inversion F2; subst. cbn [fst snd] in *.
    destruct (is_undefined x) eqn:D.
    + destruct x; try discriminate. constructor. now apply IH'.
    + unfold quote_string. cbn [app]. rewrite <- app_assoc. cbn [app]. apply sm_cons; auto; [now intros ->|now apply quoted].
Qed.
Lemma stringified_sound :
  (forall v t, Stringified (br_text B) v t -> Units16 v -> stringify B v = t) /\
  (forall l ts, Items (br_text B) l ts -> Forall Units16 l -> map (stringify B) l = ts) /\
  (forall m ts, Members (br_text B) m ts -> Forall (fun p => Forall (fun u => u < 65536) (fst p)) m ->
     Forall (fun p => Units16 (snd p)) m -> members_text m = ts).
Proof.
  apply (Stringified_mutind (br_text B)); try reflexivity.
  - intros n s I D _. destruct (dec_text_spec n) as (D' & I' & _). rewrite <- (decimal_unique _ _ n I' I D' D). now destruct n.
  - intros p s I D _. destruct (dec_text_spec (N.pos p)) as (D' & I' & _). now rewrite <- (decimal_unique _ _ _ I' I D' D).
  - intros bits H _. cbn [stringify to_text]. now destruct (N.eqb_spec (bits / 2 ^ 52 mod 2048) 2047).
  - intros bits H _. cbn [stringify to_text]. now rewrite H.
  - intros t s Q U. inversion U; subst. cbn [stringify]. unfold quote_string. apply quoted in Q; [|assumption]. now rewrite Q.
  - intros l ts s _ IH C U. inversion U; subst. apply commas_join in C as <-. cbn [stringify]. now rewrite IH.
  - intros m ts s _ IH C U. inversion U; subst. apply commas_join in C as <-. rewrite stringify_obj. now rewrite IH.
  - intros v t l ts _ IH1 _ IH2 F. inversion F; subst. cbn [map]. now rewrite IH1, IH2.
  - intros k m ts _ IH F1 F2. inversion F1; inversion F2; subst. cbn [members_text is_undefined]. now apply IH.
  - intros k q v t m ts N Q _ IH1 _ IH2 F1 F2. inversion F1; inversion F2; subst. cbn [fst snd] in *. cbn [members_text].
    replace (is_undefined v) with false by (destruct v; [congruence|reflexivity..]).
    rewrite IH1, IH2 by assumption. unfold quote_string. apply quoted in Q; [|assumption]. rewrite Q. cbn [app].
    rewrite <- app_assoc. reflexivity.
Qed.
Lemma stringified v t : Units16 v -> (stringify B v = t <-> Stringified (br_text B) v t).
Proof. intro U. split; [intros <-; now apply stringified_total|intro H; now apply stringified_sound]. Qed.
End Browser.
Example ex_stringified : Stringified (fun _ => lit "1.5")
  (JsObj [(lit "a", JsArr [JsInt (-20); JsUndefined; JsDouble 0x3FF8000000000000; JsDouble 0x7FF0000000000000]);
          (lit "b", JsUndefined); (lit "c", JsObj []); (lit "d", JsBuf [x01]); (lit "e", JsStr [34])])
  ([123; 34; 97; 34; 58] ++ lit "[-20,null,1.5,null]" ++ [44; 34; 99; 34; 58] ++ lit "{}" ++ [44; 34; 100; 34; 58]
    ++ lit "{}" ++ [44; 34; 101; 34; 58; 34; 92; 34; 34; 125]).
Proof.
  apply (stringified {| br_parse := fun _ => None; br_text := fun _ => lit "1.5" |}); [|vm_compute; reflexivity].
  repeat (constructor; cbn [fst snd]).
Qed.
