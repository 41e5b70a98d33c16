(** * AppConcHonestSpec: what has to be in order when a response arrives, for C95. *)
From Coq Require Import List NArith ZArith Bool String.
From Verif Require Import Base Types World Spec App AppSpec AppConc AppConcSpec.
Import ListNotations.
Local Open Scope list_scope.

(** A registration is in order: [RegisterSpec] of AppSpec.v but for the id being new. *)
Definition FitRegistration (W : World) (E : appenv) (s : server) (clock : Z) (i n : pystr)
           (cr : credential) : Prop :=
  exists id n0 c t handle cdj aob adb ad acd k b,
    ap_int E i = Some id /\ DrawnChallenge s n0 c id t /\ (clock - t <= 60000)%Z /\
    HasHandle s n handle /\
    cr_response cr = AttestationResponse cdj aob /\
    ClientDataSpec W "webauthn.create" c app_origin None cdj /\
    AttObjSpec W aob "none" [] adb /\
    AuthDataSpec W app_rp_id false None adb ad /\
    ad_attested ad = Some acd /\ at_key acd = Some k /\
    cose_key (Some k) = Ok b.

(** The number given to the next request. *)
Definition next (s : server) : nat := List.length (sv_threads s).

(** If no statement of it fails, request [j] is answered with success whenever it is answered
    at all, and its own six statements suffice for it to be answered; [before] and [after] are
    the events before and after its arrival. *)
Definition Succeeds (W : World) (E : appenv) (before after : list sv_event) (x : chance * request)
  : Prop :=
  let j := next (Served W E before) in
  let s := Served W E (before ++ Arrive x :: after) in
  ~ In (Fail j) after ->
  (forall r, Replied s j x r -> r = Success) /\
  (6 <= turns j after -> Replied s j x Success).

(** No other registration of this credential id is accepted. *)
Definition OnlyRegistration (W : World) (s : server) (j : nat) (id : bytes) : Prop :=
  forall j' y i n cr, j' <> j -> Replied s j' y Success -> Registers W (snd y) i n cr ->
    cr_raw_id cr <> id.
(** The other logins accepted with this credential have smaller counters. *)
Definition LargestLogin (W : World) (s : server) (j : nat) (id : bytes) (ctr : N) : Prop :=
  forall j' y i n cr c, j' <> j -> Replied s j' y Success -> Authenticates W (snd y) i n cr ->
    cr_raw_id cr = id -> LoginCounter cr c -> (c < ctr)%N.
