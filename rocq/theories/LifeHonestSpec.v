(** * LifeHonestSpec: what outlasts kills, specified. *)
From Coq Require Import List NArith ZArith Bool String.
From Verif Require Import Base PyVal Types World App AppSpec Form Page AppConc AppConcSpec AppConcHonestSpec Routes RoutesSpec Life LifeSpec.
Import ListNotations.
Local Open Scope list_scope.

(** From the end of [l1], in [l2], the program is not stopped and its file is always there;
    it may be killed and started again. *)
Definition Keeps (W : World) (E : appenv) (replaced : bytes -> pystr) (multipart : list N -> list (pystr * pystr))
           (l1 l2 : list life_event) : Prop :=
  ~ In Stop l2 /\
  forall l2a l2b, l2 = l2a ++ l2b -> ho_linked (Lived W E replaced multipart (l1 ++ l2a)) = true.

(** The statements executed for request [j] of the process. *)
Definition steps_of (j : nat) (l : list life_event) : nat :=
  List.length (filter (fun e => match e with Go i => Nat.eqb i j | _ => false end) l).

(** In the events [l ++ l'], the other logins accepted with this credential, by this process or by
    earlier ones, have smaller counters; request [j] arrives with the first event of [l']. *)
Definition Largest (W : World) (E : appenv) (replaced : bytes -> pystr) (multipart : list N -> list (pystr * pystr))
           (l l' : list life_event) (j : nat) (id : bytes) (ctr : N) : Prop :=
  forall l0 l0' j' y i n cr c, l ++ l' = l0 ++ l0' -> List.length l0 <= List.length l \/ j' <> j ->
    Says (Lived W E replaced multipart l0) j' y Success ->
    Authenticates W (snd y) i n cr -> cr_raw_id cr = id -> LoginCounter cr c -> (c < ctr)%N.

(** In the events [l ++ l'], no other registration of this credential id is accepted, by this
    process or by earlier ones. *)
Definition OnlyOne (W : World) (E : appenv) (replaced : bytes -> pystr) (multipart : list N -> list (pystr * pystr))
           (l l' : list life_event) (j : nat) (id : bytes) : Prop :=
  forall l0 l0' j' y i n cr, l ++ l' = l0 ++ l0' -> List.length l0 <= List.length l \/ j' <> j ->
    Says (Lived W E replaced multipart l0) j' y Success ->
    Registers W (snd y) i n cr -> cr_raw_id cr <> id.
