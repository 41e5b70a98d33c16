(** * LifeSpec: starts, stops and kills of the example application, specified. *)
From Coq Require Import List NArith ZArith Bool String.
From Verif Require Import Base PyVal Types World App AppSpec Form Page AppConc AppConcSpec Routes RoutesSpec Life.
Import ListNotations.
Local Open Scope list_scope.

(** The host after these events, from nothing. *)
Definition Lived (W : World) (E : appenv) (replaced : bytes -> pystr) (multipart : list N -> list (pystr * pystr))
           (l : list life_event) : host := live_all W E replaced multipart bare l.
(** Request number [i] of the running process was [x] and has been answered with [r]. *)
Definition Says (o : host) (i : nat) (x : chance * request) (r : reply) : Prop :=
  exists ts, ho_process o = Some ts /\ nth_error ts i = Some (x, Answered r).

(** No process is running; one is, and its file is there or was removed by a second start. *)
Inductive phase := Off | On (linked : bool).

(** The events [es] of one server that is never stopped or killed: those since the data were last
    lost. The [k] requests of processes that were killed are left alone. *)
Inductive Since (replaced : bytes -> pystr) (multipart : list N -> list (pystr * pystr))
  : list life_event -> phase -> nat -> list sv_event -> Prop :=
| since_nil : Since replaced multipart [] Off 0 []
| since_start l k es : Since replaced multipart l Off k es ->
    Since replaced multipart (l ++ [Start]) (On true)
      (List.length (filter (fun e => match e with Arrive _ => true | _ => false end) es)) es
| since_second l b k es : Since replaced multipart l (On b) k es ->
    Since replaced multipart (l ++ [Start]) (On false) k es
| since_request l b k es c h q : Since replaced multipart l (On b) k es -> Reaches replaced multipart h q ->
    Since replaced multipart (l ++ [Incoming (c, h)]) (On b) k (es ++ [Arrive (c, q)])
| since_other l b k es c h : Since replaced multipart l (On b) k es -> (forall u, ~ For u h) ->
    Since replaced multipart (l ++ [Incoming (c, h)]) (On b) k es
| since_go l b k es i : Since replaced multipart l (On b) k es ->
    Since replaced multipart (l ++ [Go i]) (On b) k (es ++ [Proceed (k + i)])
| since_fail l b k es i : Since replaced multipart l (On b) k es ->
    Since replaced multipart (l ++ [Break_ i]) (On b) k (es ++ [Fail (k + i)])
| since_idle l k es e : Since replaced multipart l Off k es -> e <> Start ->
    Since replaced multipart (l ++ [e]) Off k es
| since_stop l b k es : Since replaced multipart l (On b) k es -> Since replaced multipart (l ++ [Stop]) Off 0 []
| since_kill l k es : Since replaced multipart l (On true) k es -> Since replaced multipart (l ++ [Kill]) Off k es
| since_lost l k es : Since replaced multipart l (On false) k es -> Since replaced multipart (l ++ [Kill]) Off 0 [].
