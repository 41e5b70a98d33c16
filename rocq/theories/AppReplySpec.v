(** * AppReplySpec: which answer each response gets, in terms of the history. *)
From Coq Require Import List NArith ZArith Bool String.
From Verif Require Import Base PyVal Types World Parsers Backends Spec App AppSpec.
Import ListNotations.

(** The challenge named in the form was sent, at time [t]. *)
Definition Named (W : World) (E : appenv) (l : list (chance * request)) (i : pystr) (t : Z) : Prop :=
  exists id n0 c, ap_int E i = Some id /\ Issued W E l n0 c id t.
(** User [n] exists. *)
Definition Known (W : World) (E : appenv) (l : list (chance * request)) (n : pystr) : Prop :=
  exists h, UserHandle W E l n h.
(** The response is of the kind that registers. *)
Definition attests (cr : credential) : bool :=
  match cr_response cr with AttestationResponse _ _ => true | AssertionResponse _ _ _ _ => false end.

(** The answer to a response with challenge id [i], user name [n] and credential [cr], the
    first reason to refuse it first; [kind] says which responses the endpoint takes, [ok]
    what it accepts, [failed] is its text for anything else. *)
Inductive ResponseReply (W : World) (E : appenv) (l : list (chance * request)) (clock : Z)
          (i n : pystr) (cr : credential) (kind : bool) (ok : Prop) (failed : string)
  : reply -> Prop :=
| rr_type : attests cr <> kind ->
    ResponseReply W E l clock i n cr kind ok failed (Reply 400 "Invalid response type")
| rr_challenge : attests cr = kind -> (forall t, ~ Named W E l i t) ->
    ResponseReply W E l clock i n cr kind ok failed
      (Reply 400 "Could not find challenge matching given id")
| rr_user t : attests cr = kind -> Named W E l i t -> ~ Known W E l n ->
    ResponseReply W E l clock i n cr kind ok failed (Reply 400 "Invalid username")
| rr_timeout t : attests cr = kind -> Named W E l i t -> Known W E l n -> (clock - t > 60000)%Z ->
    ResponseReply W E l clock i n cr kind ok failed (Reply 408 "Timeout")
| rr_failed t : attests cr = kind -> Named W E l i t -> Known W E l n -> (clock - t <= 60000)%Z ->
    ~ ok -> ResponseReply W E l clock i n cr kind ok failed (Reply 400 failed)
| rr_ok t : attests cr = kind -> Named W E l i t -> Known W E l n -> (clock - t <= 60000)%Z ->
    ok -> ResponseReply W E l clock i n cr kind ok failed Success.
