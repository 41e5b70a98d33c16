(** * AgreeSpec: what an accepted login says about the authenticator. *)
From Coq Require Import List NArith ZArith Bool String.
From Verif Require Import Base PyVal B64 Utf8 Types World Parsers Crypto Backends Spec App AppSpec
  AppConc AppConcSpec.
Import ListNotations.
Local Open Scope list_scope.

(** What happens, in order: to the server, and at the authenticator that holds a private key,
    which signs authenticator data and client data. *)
Inductive moment (A : Type) : Type :=
| Server (a : A)
| Sign (adb cdj : bytes).
Arguments Server {A} a.
Arguments Sign {A} adb cdj.

(** The server's part. *)
Fixpoint at_server {A} (tr : list (moment A)) : list A :=
  match tr with
  | [] => []
  | Server a :: t => a :: at_server t
  | Sign _ _ :: t => at_server t
  end.
(** The authenticator's part. *)
Fixpoint signatures {A} (tr : list (moment A)) : list (bytes * bytes) :=
  match tr with
  | [] => []
  | Server _ :: t => signatures t
  | Sign adb cdj :: t => (adb, cdj) :: signatures t
  end.

(** Login response [q] in the name of [n] with credential [id] carries client data [cdj],
    authenticator data [adb] and signature [sig]. *)
Definition Presents (W : World) (q : request) (n : pystr) (id cdj adb sig : bytes) : Prop :=
  exists i cr uh, Authenticates W q i n cr /\ cr_raw_id cr = id /\
    cr_response cr = AssertionResponse cdj adb sig uh.

(** The challenge in client data [cdj] is [c]. *)
Definition Names (W : World) (cdj c : bytes) : Prop :=
  exists text m ch,
    utf8_decode cdj = Ok text /\ w_json_loads W text = WOk (VDict m) /\
    member "challenge" m (VStr ch) /\ url_base64_decode ch = Ok c.

Section Traces.
Context {A : Type}.
(** The request that arrives with an event of the server, and the challenges drawn and sent
    in the course of some of them. *)
Variable arrives : A -> option (chance * request).
Variable drawn sent : list A -> bytes -> Prop.

(** Nobody else signs: a signature that verifies under [k] arrives only after the
    authenticator signed the message. *)
Definition Unforged (W : World) (k : pubkey) (tr : list (moment A)) : Prop :=
  forall tr1 a tr2 x n id cdj adb sig,
    tr = tr1 ++ Server a :: tr2 -> arrives a = Some x ->
    Presents W (snd x) n id cdj adb sig -> SignatureSpec W k sig (adb ++ w_sha256 W cdj) ->
    exists adb' cdj', In (Sign adb' cdj') tr1 /\ adb' ++ w_sha256 W cdj' = adb ++ w_sha256 W cdj.

(** Client data that was signed and client data that arrived have different hashes if they
    are different. *)
Definition NoCollision (W : World) (tr : list (moment A)) : Prop :=
  forall a x n id cdj adb sig adb' cdj',
    In (Server a) tr -> arrives a = Some x -> Presents W (snd x) n id cdj adb sig ->
    In (Sign adb' cdj') tr -> w_sha256 W cdj' = w_sha256 W cdj -> cdj' = cdj.

(** Nobody knows a challenge before it is sent. *)
Definition Unpredicted (W : World) (tr : list (moment A)) : Prop :=
  forall tr1 adb cdj tr2 c,
    tr = tr1 ++ Sign adb cdj :: tr2 -> Names W cdj c -> drawn (at_server tr) c -> sent (at_server tr1) c.
End Traces.

(** The hash has 32 bytes. *)
Definition hash_32 (W : World) : Prop := forall b, List.length (w_sha256 W b) = 32.

(** ** Requests served one after the other *)
Definition one_by_one (a : chance * request) : option (chance * request) := Some a.
Definition sent_one (W : World) (E : appenv) (l : list (chance * request)) (c : bytes) : Prop :=
  exists n id t, Issued W E l n c id t.

(** Moment number [p] is a login with credential [id] and authenticator data [adb] that is
    accepted. *)
Definition AcceptedAt (W : World) (E : appenv) (tr : list (moment (chance * request))) (id : bytes)
           (p : nat) (adb : bytes) : Prop :=
  exists tr1 x tr2 n cdj sig,
    tr = tr1 ++ Server x :: tr2 /\ p = List.length tr1 /\
    Presents W (snd x) n id cdj adb sig /\ answer W E (at_server tr1) x = Success.

(** ** Requests in flight together *)
Definition arriving (e : sv_event) : option (chance * request) :=
  match e with Arrive x => Some x | Proceed _ | Fail _ => None end.
Definition drawn_shared (W : World) (E : appenv) (l : list sv_event) (c : bytes) : Prop :=
  exists n id t, DrawnChallenge (Served W E l) n c id t.
Definition sent_shared (W : World) (E : appenv) (l : list sv_event) (c : bytes) : Prop :=
  exists n id t, SentChallenge (Served W E l) n c id t.
