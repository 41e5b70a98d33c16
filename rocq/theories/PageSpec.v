(** * PageSpec: what the page of the example application is meant to do. *)
From Coq Require Import List NArith ZArith Bool String.
From Verif Require Import Base PyVal Json JsonSpec CodecSpec Types World App AppSpec DumpsSpec Form Page.
Import ListNotations.
Local Open Scope N_scope.
Local Open Scope list_scope.

(** ** JSON in the browser *)

(** Values that JavaScript holds exactly: integers up to 2^53, no floats; no member name
    begins with a digit (such members may be put in another order). *)
Inductive Exact : pyval -> Prop :=
| ex_none : Exact VNone
| ex_bool b : Exact (VBool b)
| ex_int z : (Z.abs z <= 2 ^ 53)%Z -> Exact (VInt z)
| ex_str s : Exact (VStr s)
| ex_list l : Forall Exact l -> Exact (VList l)
| ex_dict d : (forall k w, In (k, w) d -> exists s, k = VStr s /\ ~ (exists c t, s = c :: t /\ Digit c)) ->
    NoDup (map fst d) ->
    Forall (fun kv => Exact (snd kv)) d -> Exact (VDict d).
(** The JavaScript value of a JSON value. *)
Fixpoint js_of (v : pyval) : jsval :=
  match v with
  | VNone => JsNull
  | VBool b => JsBool b
  | VInt z => JsInt z
  | VStr s => JsStr (utf16 s)
  | VList l => JsArr (map js_of l)
  | VDict d => JsObj (map (fun kv => (match fst kv with VStr s => utf16 s | _ => [] end, js_of (snd kv))) d)
  | _ => JsUndefined
  end.
(** JSON.parse, on ASCII texts of such values. *)
Definition ParsesJson (B : browser) (J : jsonenv) : Prop :=
  forall t v, JText J t v -> Forall (fun c => c < 128) t -> Exact v -> br_parse B t = Some (js_of v).

(** ** The arguments of navigator.credentials *)

(** An object with members among [names]; [P] is told which it has. *)
Definition Members (names : list string) (P : (string -> jsval -> Prop) -> Prop) (o : jsval) : Prop :=
  exists m, o = JsObj m /\ NoDup (map fst m) /\
    (forall k v, In (k, v) m -> exists n, In n names /\ k = lit n) /\
    P (fun n v => In (lit n, v) m).
Definition text (s : string) : jsval := JsStr (lit s).

(** WebAuthn L1, 5.4: what create() is called with for user [n] with handle [h]. *)
Definition CreationArgument (n : pystr) (h challenge : bytes) : jsval -> Prop :=
  Members ["publicKey"%string] (fun has => exists pk, has "publicKey"%string pk /\
    Members ["rp"; "user"; "challenge"; "pubKeyCredParams"; "timeout"; "attestation"]%string (fun has =>
      (exists rp, has "rp"%string rp /\
         Members ["name"; "id"]%string (fun has =>
           has "name"%string (text "localhost") /\ has "id"%string (text "localhost")) rp) /\
      (exists u, has "user"%string u /\
         Members ["name"; "id"; "displayName"]%string (fun has =>
           has "name"%string (JsStr (utf16 n)) /\ has "id"%string (JsBuf h) /\
           has "displayName"%string (JsStr (utf16 n))) u) /\
      has "challenge"%string (JsBuf challenge) /\
      (exists p, has "pubKeyCredParams"%string (JsArr [p]) /\
         Members ["type"; "alg"]%string (fun has =>
           has "type"%string (text "public-key") /\ has "alg"%string (JsInt (-7))) p) /\
      has "timeout"%string (JsInt 60000) /\ has "attestation"%string (text "none")) pk).

(** 5.5: what get() is called with; [ids] are the credentials allowed. *)
Definition RequestArgument (ids : list bytes) (challenge : bytes) : jsval -> Prop :=
  Members ["mediation"; "publicKey"]%string (fun has =>
    has "mediation"%string (text "optional") /\ exists pk, has "publicKey"%string pk /\
    Members ["challenge"; "timeout"; "rpId"; "allowCredentials"; "userVerification"]%string (fun has =>
      has "challenge"%string (JsBuf challenge) /\ has "timeout"%string (JsInt 60000) /\
      has "rpId"%string (text "localhost") /\ has "userVerification"%string (text "preferred") /\
      exists l, has "allowCredentials"%string (JsArr l) /\
        Forall2 (fun i x => Members ["type"; "id"]%string (fun has =>
          has "type"%string (text "public-key") /\ has "id"%string (JsBuf i)) x) ids l) pk).

(** Object [o] has member [n] with value [x]. *)
Definition Reads (o : jsval) (n : string) (x : jsval) : Prop :=
  exists m, o = JsObj m /\ NoDup (map fst m) /\ In (lit n, x) m.

(** ** What the page sends *)

(** A string as browsers hold it, and text in ASCII. *)
Definition Units (s : jstring) : Prop := Forall (fun u => u < 65536) s.
Definition Ascii (s : list N) : Prop := Forall (fun c => c < 128) s.

(** The credential that the server is to receive. *)
Definition Attests (c : att_cred) (cr : credential) : Prop :=
  PlainText (cr_id cr) /\ ac_id c = utf16 (cr_id cr) /\
  PlainText (cr_type cr) /\ ac_type c = utf16 (cr_type cr) /\ cr_raw_id cr = ac_raw_id c /\
  cr_response cr = AttestationResponse (ac_client c) (ac_object c).
(** An empty user handle is none. *)
Definition Asserts (c : ass_cred) (cr : credential) : Prop :=
  PlainText (cr_id cr) /\ sc_id c = utf16 (cr_id cr) /\
  PlainText (cr_type cr) /\ sc_type c = utf16 (cr_type cr) /\ cr_raw_id cr = sc_raw_id c /\
  exists h, cr_response cr = AssertionResponse (sc_client c) (sc_data c) (sc_signature c) h /\
    (forall b, h = Some b <-> sc_handle c = Some b /\ b <> []).

(** SQLite compares a decimal text with the integer it denotes. *)
Definition reads_decimal (E : appenv) : Prop :=
  forall t n, IntPart t -> Decimal t n -> n <= 2 ^ 53 -> ap_int E t = Some n.

(** ** Runs *)

(** Events in which neither the script nor the authenticator takes part: other clients, and
    typing. *)
Definition Elsewhere (es : list event) : Prop :=
  Forall (fun e => (exists x, e = Other x) \/ (exists t, e = Type_ t)) es.
(** Their requests. *)
Definition requests (es : list event) : list (chance * request) :=
  flat_map (fun e => match e with Other x => [x] | _ => [] end) es.
(** A click for function [i] up to the call of the authenticator, and on to the end: the
    server handles the requests with chances [c], the authenticator answers by event [e], and
    [o j] is what happens elsewhere in between. *)
Definition asking (e : event) (i : nat) (c : chance) (o : nat -> list event) : list event :=
  e :: o 0%nat ++ Serve i c :: o 1%nat ++ Deliver i :: o 2%nat ++ [Parse i].
Definition telling (e : event) (i : nat) (c : chance) (o : nat -> list event) : list event :=
  o 3%nat ++ e :: o 4%nat ++ Resume i :: o 5%nat ++ Serve i c :: o 6%nat ++ [Deliver i].

Definition registered_text (n : jstring) : jstring :=
  lit "Successfully registered credential for " ++ n ++ lit "!".
Definition authorized_text (n : jstring) : jstring :=
  lit "Successfully authorized username " ++ n ++ lit "!".

Definition register_failed_text (n : jstring) : jstring :=
  lit "Failed to register credential for " ++ n ++ lit "...".
Definition authorize_failed_text (n : jstring) : jstring :=
  lit "Failed to authorize username " ++ n ++ lit "...".
Definition register_refused_text : jstring :=
  lit "Failed to register username...could already be registered.".
Definition authenticate_refused_text : jstring := lit "Failed to request authentication...".

(** The texts in between; [q] are the events of function [i] still to come: the answer is
    being fetched and read, the authenticator asked, and its credential sent. *)
Definition Stages (i : nat) (asking_text creating_text sending_text : jstring) (q : list event) (status : jstring) : Prop :=
  (In (Parse i) q -> status = asking_text) /\
  (~ In (Parse i) q -> In (Resume i) q -> status = creating_text) /\
  (~ In (Resume i) q -> In (Deliver i) q -> status = sending_text).
Definition registering_text (n : jstring) : jstring := lit "Registering username " ++ n ++ lit ".".
Definition creating_text (n : jstring) : jstring := lit "Creating credential for " ++ n ++ lit ".".
Definition attesting_text (n : jstring) : jstring := lit "Attesting credential for " ++ n ++ lit ".".
Definition requesting_text (n : jstring) : jstring := lit "Requesting authentication for username " ++ n ++ lit ".".
Definition asserting_text (n : jstring) : jstring := lit "Asserting credential for " ++ n.

(** ** All runs *)
Section Runs.
Variable B : browser.
Variable W : World.
Variable E : appenv.
Variable J : jsonenv.
Variable repr : N -> pystr.
Variable replaced : bytes -> pystr.
Let at_ (es : list event) : system := run_page B W E J repr replaced started es.

(** In run [es] the server answered a request that the page sent to [u] with success. *)
Definition PageAccepted (es : list event) (u : endpoint) : Prop :=
  exists es1 i c es2 body k,
    es = es1 ++ Serve i c :: es2 /\ nth_error (sy_tasks (at_ es1)) i = Some (Fetch u body k) /\
    answer W E (sy_log (at_ es1)) (c, to_request replaced u body) = Success.

(** All functions of the page have ended. *)
Definition Idle (s : system) : Prop := Forall (fun t => t = Finished \/ t = Threw) (sy_tasks s).
(** The user waits for that before each click. *)
Definition OneAtATime (es : list event) : Prop :=
  forall es1 e es2, es = es1 ++ e :: es2 -> e = ClickRegister \/ e = ClickAuthenticate -> Idle (at_ es1).
Definition Typed (es : list event) : Prop := forall t, In (Type_ t) es -> Units t.
End Runs.
