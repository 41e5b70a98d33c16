(** * WebAlone: the runs of Page.v are runs of Web.v. *)
From Coq Require Import List NArith ZArith Bool String Lia.
From Verif Require Import Base BaseFacts PyVal Json JsonSpec Types World App AppSpec AppFacts AppHistory Dumps Form Page PageSpec PageRun
  AppConc AppConcSpec AppConcHonestSpec AppConcFacts AppConcInv AppConcTheorems Web WebSpec WebFacts.
Import ListNotations.
Local Open Scope list_scope.

Section Alone.
Variable B : browser.
Variable W : World.
Variable E : appenv.
Variable J : jsonenv.
Variable repr : N -> pystr.
Variable replaced : bytes -> pystr.
Notation Web := (Web B W E J repr replaced).
Notation happens := (happens B W E J repr replaced).
Notation local := (local B W E J repr replaced).

Definition turns_of (j m : nat) : list web_event := repeat (Server (Proceed j)) m.
Lemma web_turns l j m : Web (l ++ turns_of j m) =
  {| wb_pages := wb_pages (Web l); wb_server := happen_all W E (wb_server (Web l)) (repeat (Proceed j) m) |}.
Proof.
  unfold turns_of. revert l. induction m as [|m IH]; intro l.
  - rewrite app_nil_r. now destruct (Web l).
  - cbn [repeat]. change (l ++ ?e :: ?t) with (l ++ [e] ++ t). rewrite app_assoc, IH, web_snoc. reflexivity.
Qed.
(** A request that arrives is handled with nothing in between. *)
Lemma handled l e x log : wb_server (Web (l ++ [e])) = happen W E (wb_server (Web l)) (Arrive x) ->
  sv_db (wb_server (Web l)) = after W E log -> List.length (sv_threads (wb_server (Web l))) = List.length log ->
  exists m, Web (l ++ e :: turns_of (List.length log) m) =
    {| wb_pages := wb_pages (Web (l ++ [e]));
       wb_server := {| sv_db := after W E (log ++ [x]);
                       sv_threads := sv_threads (wb_server (Web l)) ++ [(x, Answered (answer W E log x))] |} |}.
Proof.
  intros S D L. destruct (happen_alone W E (handle W E x) (happen W E (wb_server (Web l)) (Arrive x)) (List.length log) x) as (m & HA).
  { cbn. rewrite <- L. now rewrite nth_error_app2, Nat.sub_diag by lia. }
  exists m. change (l ++ e :: ?t) with (l ++ [e] ++ t). rewrite app_assoc, web_turns, S, HA.
  cbn [happen sv_db sv_threads]. rewrite handle_alone, D. unfold answer. rewrite after_snoc. do 2 f_equal.
  rewrite <- L. apply replace_last.
Qed.

(** The page after [es], and the server with every request answered. *)
Definition like (s : system) (l : list web_event) : Prop :=
  wb_pages (Web l) = [{| pg_globals := sy_page s; pg_tasks := sy_tasks s; pg_open := [] |}] /\
  sv_db (wb_server (Web l)) = after W E (sy_log s) /\
  List.length (sv_threads (wb_server (Web l))) = List.length (sy_log s) /\
  forall l1 x l2, sy_log s = l1 ++ x :: l2 -> Replied (wb_server (Web l)) (List.length l1) x (answer W E l1 x).

Lemma replied_snoc (s : server) log x d :
  List.length (sv_threads s) = List.length log ->
  (forall l1 y l2, log = l1 ++ y :: l2 -> Replied s (List.length l1) y (answer W E l1 y)) ->
  forall l1 y l2, log ++ [x] = l1 ++ y :: l2 ->
  Replied {| sv_db := d; sv_threads := sv_threads s ++ [(x, Answered (answer W E log x))] |} (List.length l1) y (answer W E l1 y).
Proof.
  intros L R l1 y l2 EQ. unfold Replied. cbn [sv_threads]. destruct l2 as [|z l2 _] using rev_ind.
  - apply app_inj_tail in EQ as [-> ->]. rewrite nth_error_app2; rewrite L; [|reflexivity]. now rewrite Nat.sub_diag.
  - rewrite app_comm_cons, app_assoc in EQ. apply app_inj_tail in EQ as [-> _]. apply nth_grow. now apply (R l1 y l2).
Qed.

(** An event of the page alone. *)
Lemma log_free s e : (forall i c, e <> Serve i c) -> (forall x, e <> Other x) ->
  sy_log (happens s e) = sy_log s /\
  local {| pg_globals := sy_page s; pg_tasks := sy_tasks s; pg_open := [] |} e =
    {| pg_globals := sy_page (happens s e); pg_tasks := sy_tasks (happens s e); pg_open := [] |}.
Proof.
  intros N1 N2. destruct e; try (now destruct (N1 _ _ eq_refl)); try (now destruct (N2 _ eq_refl));
    cbn [Web.local Page.happens view pg_globals pg_tasks pg_open sy_page sy_tasks sy_log click]; unfold click, continue;
    repeat match goal with |- context [match ?x with _ => _ end] => destruct x end; split; reflexivity.
Qed.

Lemma like_step s l e : like s l -> exists l', like (happens s e) (l ++ l') /\ forall i, ~ In (Server (Fail i)) l'.
Proof.
  intros (P & D & L & R).
  assert (C : (exists i c, e = Serve i c) \/ (exists x, e = Other x) \/ (forall i c, e <> Serve i c) /\ (forall x, e <> Other x)).
  { destruct e; eauto; right; right; split; intros; discriminate. }
  assert (NF : forall j m i, ~ In (Server (Fail i)) (turns_of j m)) by (intros j m i I; apply repeat_spec in I; discriminate I).
  destruct C as [(i & c & ->)|[(x & ->)|[N1 N2]]].
  - cbn [Page.happens]. destruct (nth_error (sy_tasks s) i) as [[u body k|r k|t k|a k|a k|k| |]|] eqn:N;
      try (exists []; rewrite app_nil_r; split; [now repeat split|now intros]).
    set (x := (c, to_request replaced u body)).
    assert (S : Web (l ++ [Send 0 i c]) = {| wb_pages := [{| pg_globals := sy_page s; pg_tasks := sy_tasks s; pg_open := [(i, List.length (sy_log s))] |}];
      wb_server := happen W E (wb_server (Web l)) (Arrive x) |}).
    { rewrite web_snoc. cbn [web_happens]. rewrite P. cbn [nth_error pg_tasks]. rewrite N. cbn [request_of pg_open find option_map update].
      now rewrite L. }
    destruct (handled l (Send 0 i c) x (sy_log s)) as (m & HW); [now rewrite S|exact D|exact L|].
    exists ((Send 0 i c :: turns_of (List.length (sy_log s)) m) ++ [Answer 0 i]). split.
    + unfold like. rewrite app_assoc, web_snoc, HW, S. cbn [web_happens wb_pages nth_error pg_tasks]. rewrite N.
      unfold request_of. cbn [pg_open find fst]. rewrite Nat.eqb_refl. cbn [option_map snd wb_server sv_threads].
      rewrite nth_error_app2 by lia. rewrite L, Nat.sub_diag. cbn [nth_error wb_pages wb_server update pg_globals sv_db sv_threads sy_page sy_tasks sy_log].
      split.
      * unfold closed. cbn [filter fst]. rewrite Nat.eqb_refl. reflexivity.
      * split; [reflexivity|]. split; [now rewrite !app_length, L|]. now apply replied_snoc.
    + intros j I. apply in_app_iff in I as [[I|I]|[I|[]]]; try discriminate I. now apply NF in I.
  - assert (S : Web (l ++ [Server (Arrive x)]) = {| wb_pages := wb_pages (Web l); wb_server := happen W E (wb_server (Web l)) (Arrive x) |})
      by (now rewrite web_snoc).
    destruct (handled l (Server (Arrive x)) x (sy_log s)) as (m & HW); [now rewrite S|exact D|exact L|].
    exists (Server (Arrive x) :: turns_of (List.length (sy_log s)) m). split.
    + unfold like. rewrite HW, S. cbn [wb_pages wb_server sv_db sv_threads Page.happens sy_page sy_tasks sy_log]. split; [exact P|].
      split; [reflexivity|]. split; [now rewrite !app_length, L|]. now apply replied_snoc.
    + intros j [I|I]; [discriminate I|now apply NF in I].
  - exists [At 0 e]. split; [|intros i [I|[]]; discriminate I]. destruct (log_free s e N1 N2) as [LG LO].
    unfold like. rewrite web_snoc. cbn [web_happens]. rewrite P. cbn [nth_error wb_pages wb_server update]. rewrite LO, LG.
    split; [reflexivity|]. auto.
Qed.

Lemma c97_sequential es : let s := run_page B W E J repr replaced started es in
  exists l g, (forall i, ~ In (Server (Fail i)) l) /\ IsPage B W E J repr replaced l 0 g /\
    pg_globals g = sy_page s /\ pg_tasks g = sy_tasks s /\
    sv_db (wb_server (Web l)) = after W E (sy_log s) /\
    forall l1 x l2, sy_log s = l1 ++ x :: l2 -> Replied (wb_server (Web l)) (List.length l1) x (answer W E l1 x).
Proof.
  intro s. enough (exists l, (forall i, ~ In (Server (Fail i)) l) /\ like s l) as (l & NF & P & D & _ & R).
  { exists l. eexists. split; [exact NF|]. split; [unfold IsPage; rewrite P; reflexivity|]. auto. }
  subst s. induction es as [|e es (l & NF & K)] using rev_ind.
  - exists [Load]. split; [intros i [I|[]]; discriminate I|]. repeat split. intros [|? ?] ? ? Q; discriminate Q.
  - destruct (like_step _ l e K) as (l' & K' & NF'). exists (l ++ l'). split.
    + intros i I. apply in_app_iff in I as [I|I]; [now apply (NF i)|now apply (NF' i)].
    + unfold run_page in *. rewrite fold_left_app. exact K'.
Qed.
End Alone.
