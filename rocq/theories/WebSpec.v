(** * WebSpec: several pages and one server, specified. *)
From Coq Require Import List NArith ZArith Bool String.
From Verif Require Import Base PyVal Json Types World Crypto App AppSpec Dumps Form Page PageSpec AppConc AppConcSpec
  AppConcHonestSpec Web.
Import ListNotations.
Local Open Scope list_scope.

(** The page an event is of, and what the server does by itself. *)
Definition event_page (e : web_event) : option nat :=
  match e with Load | Server _ => None | At p _ | Send p _ _ | Answer p _ => Some p end.
Definition own (l : list web_event) : list sv_event :=
  flat_map (fun e => match e with Server x => [x] | _ => [] end) l.
(** Meanwhile: of page [p], the input element is edited at most. *)
Definition Apart (p : nat) (l : list web_event) : Prop :=
  forall e, In e l -> event_page e = Some p -> exists t, e = At p (Type_ t).

(** Function [i] of page [p], from the click [e] to the answer to its first request, from there
    to the call of the authenticator, from there to its second request, and to its end. *)
Definition web_click (p : nat) (e : event) (o : nat -> list web_event) : list web_event :=
  At p e :: o 0.
Definition web_ask (p i : nat) (c : chance) (o : nat -> list web_event) : list web_event :=
  Send p i c :: o 1.
Definition web_read (p i : nat) (o : nat -> list web_event) : list web_event :=
  Answer p i :: o 2 ++ At p (Deliver i) :: o 3 ++ [At p (Parse i)].
Definition web_sign (p i : nat) (e : event) (o : nat -> list web_event) : list web_event :=
  o 4 ++ At p e :: o 5 ++ At p (Resume i) :: o 6.
Definition web_tell (p i : nat) (c : chance) (o : nat -> list web_event) : list web_event :=
  Send p i c :: o 7.
Definition web_end (p i : nat) (o : nat -> list web_event) : list web_event :=
  Answer p i :: o 8 ++ [At p (Deliver i)].

Section Runs.
Variable B : browser.
Variable W : World.
Variable E : appenv.
Variable J : jsonenv.
Variable repr : N -> pystr.
Variable replaced : bytes -> pystr.

(** What there is after a sequence of events. *)
Definition Web (l : list web_event) : web := run_web B W E J repr replaced new_web l.
Definition IsPage (l : list web_event) (p : nat) (g : page) : Prop :=
  nth_error (wb_pages (Web l)) p = Some g.

(** Page [p] sent request number [j], which is [x], to [u]. *)
Definition Sent (l : list web_event) (p : nat) (u : endpoint) (j : nat) (x : chance * request) : Prop :=
  exists l1 i c l2 g body k,
    l = l1 ++ Send p i c :: l2 /\ IsPage l1 p g /\
    nth_error (pg_tasks g) i = Some (Fetch u body k) /\ request_of i g = None /\
    j = next (wb_server (Web l1)) /\ x = (c, to_request replaced u body).
(** And it was accepted. *)
Definition WebAccepted (l : list web_event) (p : nat) (u : endpoint) : Prop :=
  exists j x, Sent l p u j x /\ Replied (wb_server (Web l)) j x Success.

(** The user of page [p] waits for all its functions to end before each click; what they
    type are UTF-16 code units. *)
Definition Patient (p : nat) (l : list web_event) : Prop :=
  (forall l1 e l2 g, l = l1 ++ At p e :: l2 -> e = ClickRegister \/ e = ClickAuthenticate ->
     IsPage l1 p g -> Forall (fun t => t = Finished \/ t = Threw) (pg_tasks g)) /\
  (forall t, In (At p (Type_ t)) l -> Units t).

(** Page [p] sent a registration in the name of [n] that was accepted, and its credential is
    stored for that user; a login in the name of [n]. *)
Definition RegisteredBy (l : list web_event) (p : nat) (n : pystr) : Prop :=
  exists j x i cr k u row,
    Sent l p RegistrationResponseUrl j x /\ Replied (wb_server (Web l)) j x Success /\
    Registers W (snd x) i n cr /\ AttestedKey W cr k /\
    In u (db_users (sv_db (wb_server (Web l)))) /\ ur_username u = n /\
    In row (db_creds (sv_db (wb_server (Web l)))) /\ kr_id row = cr_raw_id cr /\
    kr_user row = ur_id u /\ cose_key (Some k) = Ok (kr_key row).
Definition AuthorizedBy (l : list web_event) (p : nat) (n : pystr) : Prop :=
  exists j x i cr,
    Sent l p AuthenticationResponseUrl j x /\ Replied (wb_server (Web l)) j x Success /\
    Authenticates W (snd x) i n cr.
End Runs.
