(** * Page: the browser code of the example application,
    /repo/examples/flask/templates/app.html, and the whole of browser, server and user.

    JavaScript values are trees: no object is reached by two names after a change that
    matters (Object.assign at 34 and 47 shares [publicKey] with its argument, which is not
    read again).  A function that throws returns None.  An async function is a [task]: what
    runs up to the next [await] is one step. *)
From Coq Require Import List NArith ZArith Bool String.
From Verif Require Import Base PyVal B64 Json Types World App Dumps Form.
Import ListNotations.
Local Open Scope N_scope.
Local Open Scope list_scope.

(** ** Strings: UTF-16 code units *)
Definition jstring := list N.
Definition utf16_char (c : N) : jstring :=
  if c <? 65536 then [c] else [55296 + (c - 65536) / 1024; 56320 + (c - 65536) mod 1024].
(** The JavaScript string of a text. *)
Definition utf16 (s : pystr) : jstring := flat_map utf16_char s.
Definition is_high (u : N) : bool := (55296 <=? u) && (u <=? 56319).
Definition is_low (u : N) : bool := (56320 <=? u) && (u <=? 57343).
(** Conversion to scalar values (Web IDL USVString): lone surrogates become U+FFFD. *)
Fixpoint usv (s : jstring) : pystr :=
  match s with
  | [] => []
  | u :: t =>
      if is_high u then
        match t with
        | v :: t' => if is_low v then 65536 + (u - 55296) * 1024 + (v - 56320) :: usv t'
                     else 65533 :: usv t
        | [] => [65533]
        end
      else if is_low u then 65533 :: usv t else u :: usv t
  end.

(** ** Values.  [JsInt]: a number that is an integer of at most 2^53; [JsDouble]: any other
    number, by its binary64 pattern; [JsBuf]: an ArrayBuffer or Uint8Array. *)
Inductive jsval :=
| JsUndefined | JsNull | JsBool (b : bool) | JsInt (z : Z) | JsDouble (bits : N)
| JsStr (s : jstring) | JsArr (l : list jsval) | JsObj (m : list (jstring * jsval))
| JsBuf (b : bytes).

(** What the browser supplies: JSON.parse (None: SyntaxError), and ToString on numbers that
    are not [JsInt] and on arrays and buffers. *)
Record browser := {
  br_parse : pystr -> option jsval;
  br_text : jsval -> jstring;
}.

Fixpoint assoc (k : jstring) (m : list (jstring * jsval)) : option jsval :=
  match m with
  | [] => None
  | (k', v) :: t => if str_eqb k' k then Some v else assoc k t
  end.
Fixpoint assign (k : jstring) (v : jsval) (m : list (jstring * jsval)) : list (jstring * jsval) :=
  match m with
  | [] => [(k, v)]
  | (k', v') :: t => if str_eqb k' k then (k', v) :: t else (k', v') :: assign k v t
  end.
(** [o.k]: TypeError on undefined and null. *)
Definition get (o : jsval) (k : string) : option jsval :=
  match o with
  | JsObj m => Some match assoc (lit k) m with Some v => v | None => JsUndefined end
  | JsUndefined | JsNull => None
  | _ => Some JsUndefined
  end.
(** ['k' in o]: TypeError unless [o] is an object. *)
Definition has_member (o : jsval) (k : string) : option bool :=
  match o with
  | JsObj m => Some match assoc (lit k) m with Some _ => true | None => false end
  | JsArr _ | JsBuf _ => Some false
  | _ => None
  end.
(** [o.k = v] *)
Definition put (o : jsval) (k : string) (v : jsval) : option jsval :=
  match o with
  | JsObj m => Some (JsObj (assign (lit k) v m))
  | JsUndefined | JsNull => None
  | _ => Some o
  end.
(** [Object.assign({}, o)], for objects and for values without members of their own. *)
Definition copied (o : jsval) : jsval := match o with JsObj m => JsObj m | _ => JsObj [] end.

(** A JavaScript exception ends the function. *)
Definition obind {A B} (m : option A) (k : A -> option B) : option B :=
  match m with Some a => k a | None => None end.
Notation "x <~ m ;; k" := (obind m (fun x => k))
  (at level 61, m at next level, right associativity).

(** ** base64encode, base64decode, app.html:13-23 *)

(** [btoa] of the octets. *)
Definition base64encode (b : bytes) : jstring := b2a b.

(** [atob]: the forgiving-base64 decode of the Infra Standard. *)
Definition is_space (c : N) : bool :=
  (c =? 9) || (c =? 10) || (c =? 12) || (c =? 13) || (c =? 32).
Definition strip_padding (s : jstring) : jstring :=
  if N.of_nat (List.length s) mod 4 =? 0 then
    match rev s with
    | 61 :: 61 :: t => rev t
    | 61 :: t => rev t
    | _ => s
    end
  else s.
Fixpoint sextet_values (s : jstring) : option (list N) :=
  match s with
  | [] => Some []
  | c :: t => v <~ b64_val c ;; r <~ sextet_values t ;; Some (v :: r)
  end.
Fixpoint octets_of (vs : list N) : bytes :=
  match vs with
  | a :: b :: c :: d :: t =>
      byte_of_N (a * 4 + b / 16) :: byte_of_N (b mod 16 * 16 + c / 4)
      :: byte_of_N (c mod 4 * 64 + d) :: octets_of t
  | [a; b; c] => [byte_of_N (a * 4 + b / 16); byte_of_N (b mod 16 * 16 + c / 4)]
  | [a; b] => [byte_of_N (a * 4 + b / 16)]
  | _ => []
  end.
Definition atob (s : jstring) : option bytes :=
  let s := strip_padding (filter (fun c => negb (is_space c)) s) in
  if N.of_nat (List.length s) mod 4 =? 1 then None
  else vs <~ sextet_values s ;; Some (octets_of vs).

Section Page.
Variable B : browser.

(** ToString, where a string is expected. *)
Definition to_text (v : jsval) : jstring :=
  match v with
  | JsStr s => s
  | JsInt z => (if (z <? 0)%Z then [45] else []) ++ dec_text (Z.abs_N z)
  | JsUndefined => lit "undefined"
  | JsNull => lit "null"
  | JsBool b => if b then lit "true" else lit "false"
  | JsObj _ => lit "[object Object]"
  | JsDouble _ | JsArr _ | JsBuf _ => br_text B v
  end.
Definition base64decode (v : jsval) : option jsval :=
  b <~ atob (to_text v) ;; Some (JsBuf b).

(** parseCreationOptions, app.html:33-44. *)
Definition parseCreationOptions (opts : jsval) : option jsval :=
  let p := copied opts in
  pk <~ get p "publicKey" ;;
  c <~ has_member pk "challenge" ;;
  pk1 <~ (if c : bool then
            x <~ get pk "challenge" ;; b <~ base64decode x ;; put pk "challenge" b
          else Some pk) ;;
  u <~ has_member pk1 "user" ;;
  pk2 <~ (if u : bool then
            usr <~ get pk1 "user" ;;
            i <~ has_member usr "id" ;;
            if i : bool then
              x <~ get usr "id" ;; b <~ base64decode x ;;
              usr' <~ put usr "id" b ;; put pk1 "user" usr'
            else Some pk1
          else Some pk1) ;;
  put p "publicKey" pk2.

(** The loop of parseRequestOptions, app.html:54-58. *)
Fixpoint decode_ids (l : list jsval) : option (list jsval) :=
  match l with
  | [] => Some []
  | x :: t =>
      i <~ get x "id" ;; b <~ base64decode i ;; c <~ put (copied x) "id" b ;;
      r <~ decode_ids t ;; Some (c :: r)
  end.
(** parseRequestOptions, app.html:46-64.  [length] is undefined unless the member is an array
    (strings are left out), and the loop ends at once. *)
Definition parseRequestOptions (opts : jsval) : option jsval :=
  let p := copied opts in
  pk <~ get p "publicKey" ;;
  c <~ has_member pk "challenge" ;;
  pk1 <~ (if c : bool then
            x <~ get pk "challenge" ;; b <~ base64decode x ;; put pk "challenge" b
          else Some pk) ;;
  a <~ has_member pk1 "allowCredentials" ;;
  pk2 <~ (if a : bool then
            l <~ get pk1 "allowCredentials" ;;
            match l with
            | JsUndefined | JsNull => None
            | JsArr l => l' <~ decode_ids l ;; put pk1 "allowCredentials" (JsArr l')
            | _ => put pk1 "allowCredentials" (JsArr [])
            end
          else Some pk1) ;;
  put p "publicKey" pk2.

(** ** Credentials: what navigator.credentials.create and .get return (WebAuthn L1, 5.1) *)
Record att_cred := { ac_type : jstring; ac_id : jstring; ac_raw_id : bytes;
                     ac_object : bytes; ac_client : bytes }.
Record ass_cred := { sc_type : jstring; sc_id : jstring; sc_raw_id : bytes; sc_data : bytes;
                     sc_client : bytes; sc_signature : bytes; sc_handle : option bytes }.

(** attestationJSON, app.html:66-76. *)
Definition attestationJSON (c : att_cred) : jsval :=
  JsObj [(lit "type", JsStr (ac_type c)); (lit "id", JsStr (ac_id c));
         (lit "rawId", JsStr (base64encode (ac_raw_id c)));
         (lit "response",
           JsObj [(lit "attestationObject", JsStr (base64encode (ac_object c)));
                  (lit "clientDataJSON", JsStr (base64encode (ac_client c)))])].
(** assertionJSON, app.html:78-96. *)
Definition assertionJSON (c : ass_cred) : jsval :=
  JsObj [(lit "type", JsStr (sc_type c)); (lit "id", JsStr (sc_id c));
         (lit "rawId", JsStr (base64encode (sc_raw_id c)));
         (lit "response",
           JsObj ([(lit "authenticatorData", JsStr (base64encode (sc_data c)));
                   (lit "clientDataJSON", JsStr (base64encode (sc_client c)));
                   (lit "signature", JsStr (base64encode (sc_signature c)))] ++
                  match sc_handle c with
                  | Some (h0 :: h) => [(lit "userHandle", JsStr (base64encode (h0 :: h)))]
                  | _ => []
                  end))].

(** ** JSON.stringify (ECMAScript, QuoteJSONString and SerializeJSONProperty) *)
Definition quote_unit (u : N) : jstring :=
  if u =? 34 then [92; 34] else if u =? 92 then [92; 92]
  else if u =? 8 then [92; 98] else if u =? 12 then [92; 102] else if u =? 10 then [92; 110]
  else if u =? 13 then [92; 114] else if u =? 9 then [92; 116]
  else if u <? 32 then u_escape u else [u].
(** Surrogates are written as they are in pairs, as escapes alone. *)
Fixpoint quote_units (s : jstring) : jstring :=
  match s with
  | [] => []
  | u :: t =>
      if is_high u then
        match t with
        | v :: t' => if is_low v then u :: v :: quote_units t' else u_escape u ++ quote_units t
        | [] => u_escape u
        end
      else if is_low u then u_escape u ++ quote_units t else quote_unit u ++ quote_units t
  end.
Definition quote_string (s : jstring) : jstring := 34 :: quote_units s ++ [34].
Definition is_undefined (v : jsval) : bool := match v with JsUndefined => true | _ => false end.
Fixpoint stringify (v : jsval) : jstring :=
  match v with
  | JsUndefined | JsNull => lit "null"
  | JsBool b => if b then lit "true" else lit "false"
  | JsInt _ => to_text v
  | JsDouble bits => if bits / 2 ^ 52 mod 2048 =? 2047 then lit "null" else to_text v
  | JsStr s => quote_string s
  | JsArr l => 91 :: join [44] (map stringify l) ++ [93]
  | JsObj m =>
      123 :: join [44] ((fix members m := match m with
                         | [] => []
                         | (k, x) :: t => if is_undefined x then members t
                                          else (quote_string k ++ 58 :: stringify x) :: members t
                         end) m) ++ [125]
  | JsBuf _ => lit "{}"
  end.

(** ** The script *)

(** The globals (app.html:4-11), the text of the element [status] and the value of the input
    element [username]. *)
Record globals := {
  g_registeredUsername : option jstring; g_registrationRequest : jsval;
  g_authenticationRequest : jsval; g_authenticatingUsername : option jstring;
  g_cco : jsval; g_cro : jsval; g_attestation : option att_cred; g_assertion : option ass_cred;
  g_status : jstring; g_input : jstring }.
(** A page just loaded. *)
Definition loaded : globals :=
  {| g_registeredUsername := None; g_registrationRequest := JsNull;
     g_authenticationRequest := JsNull; g_authenticatingUsername := None;
     g_cco := JsNull; g_cro := JsNull; g_attestation := None; g_assertion := None;
     g_status := []; g_input := [] |}.

(** setStatus, app.html:98-101. *)
Definition setStatus (s : jstring) (g : globals) : globals :=
  {| g_registeredUsername := g_registeredUsername g;
     g_registrationRequest := g_registrationRequest g;
     g_authenticationRequest := g_authenticationRequest g;
     g_authenticatingUsername := g_authenticatingUsername g;
     g_cco := g_cco g; g_cro := g_cro g; g_attestation := g_attestation g;
     g_assertion := g_assertion g; g_status := s; g_input := g_input g |}.
(** A user name in a message or parameter. *)
Definition shown (n : option jstring) : jstring := match n with Some s => s | None => lit "null" end.

(** The paths that the page posts to, app.html:110-160. *)
Inductive endpoint := RegistrationRequestUrl | RegistrationResponseUrl
                    | AuthenticationRequestUrl | AuthenticationResponseUrl.

(** An async function at an [await]: of fetch, with the request's body; of a response that
    has arrived ([status], body); of response.json(); of navigator.credentials.create and
    .get; of an async function that has ended; or the end, by returning or throwing. *)
Inductive task :=
| Fetch (u : endpoint) (body : list N) (k : N * pystr -> globals -> task * globals)
| Arrived (r : N * pystr) (k : N * pystr -> globals -> task * globals)
| ReadJson (t : pystr) (k : jsval -> globals -> task * globals)
| Create (o : jsval) (k : option att_cred -> globals -> task * globals)
| Get (o : jsval) (k : option ass_cred -> globals -> task * globals)
| Returned (k : globals -> task * globals)
| Finished
| Threw.

(** response.ok *)
Definition response_ok (r : N * pystr) : bool := (200 <=? fst r) && (fst r <=? 299).

(** post(endpoint, params), app.html:25-31. *)
Definition post (u : endpoint) (params : list (string * jstring))
           (k : N * pystr -> globals -> task * globals) : task :=
  Fetch u (form_encode (map (fun p => (lit (fst p), usv (snd p))) params)) k.

(** registerAttestation, app.html:103-118.  The second half runs in [registerResult]. *)
Definition registerResult (r : N * pystr) (g : globals) : task * globals :=
  (Finished,
   setStatus (if response_ok r
              then lit "Successfully registered credential for " ++ shown (g_registeredUsername g) ++ lit "!"
              else lit "Failed to register credential for " ++ shown (g_registeredUsername g) ++ lit "...") g).
Definition registerAttestation (g : globals) : task * globals :=
  let g := setStatus (lit "Attesting credential for " ++ shown (g_registeredUsername g) ++ lit ".") g in
  match g_attestation g, get (g_registrationRequest g) "challengeID" with
  | Some c, Some i =>
      (post RegistrationResponseUrl
         [("challengeID"%string, to_text i);
          ("credential"%string, stringify (attestationJSON c));
          ("username"%string, shown (g_registeredUsername g))]
         registerResult, g)
  | _, _ => (Threw, g)
  end.

(** registerUsername, app.html:120-136, and register, 172-175. *)
Definition registerCreated (c : option att_cred) (g : globals) : task * globals :=
  (Returned registerAttestation,
   {| g_registeredUsername := g_registeredUsername g;
      g_registrationRequest := g_registrationRequest g;
      g_authenticationRequest := g_authenticationRequest g;
      g_authenticatingUsername := g_authenticatingUsername g;
      g_cco := g_cco g; g_cro := g_cro g; g_attestation := c;
      g_assertion := g_assertion g; g_status := g_status g; g_input := g_input g |}).
Definition registerOptions (username : jstring) (j : jsval) (g : globals) : task * globals :=
  let g1 := {| g_registeredUsername := g_registeredUsername g;
               g_registrationRequest := j;
               g_authenticationRequest := g_authenticationRequest g;
               g_authenticatingUsername := g_authenticatingUsername g;
               g_cco := g_cco g; g_cro := g_cro g; g_attestation := g_attestation g;
               g_assertion := g_assertion g; g_status := g_status g; g_input := g_input g |} in
  match o <~ get j "creationOptions" ;; parseCreationOptions o with
  | None => (Threw, g1)
  | Some o =>
      let g2 := {| g_registeredUsername := Some username; g_registrationRequest := j;
                   g_authenticationRequest := g_authenticationRequest g;
                   g_authenticatingUsername := g_authenticatingUsername g;
                   g_cco := o; g_cro := g_cro g; g_attestation := g_attestation g;
                   g_assertion := g_assertion g; g_status := g_status g;
                   g_input := g_input g |} in
      (Create o registerCreated,
       setStatus (lit "Creating credential for " ++ username ++ lit ".") g2)
  end.
Definition registerArrived (username : jstring) (r : N * pystr) (g : globals) : task * globals :=
  if response_ok r then (ReadJson (snd r) (registerOptions username), g)
  else (Threw, setStatus (lit "Failed to register username...could already be registered.") g).
Definition register (g : globals) : task * globals :=
  let username := g_input g in
  (post RegistrationRequestUrl [("username"%string, username)] (registerArrived username),
   setStatus (lit "Registering username " ++ username ++ lit ".") g).

(** assertAuthentication, app.html:138-153. *)
Definition authenticateResult (r : N * pystr) (g : globals) : task * globals :=
  (Finished,
   setStatus (if response_ok r
              then lit "Successfully authorized username " ++ shown (g_authenticatingUsername g) ++ lit "!"
              else lit "Failed to authorize username " ++ shown (g_authenticatingUsername g) ++ lit "...") g).
Definition assertAuthentication (g : globals) : task * globals :=
  let g := setStatus (lit "Asserting credential for " ++ shown (g_authenticatingUsername g)) g in
  match g_assertion g, get (g_authenticationRequest g) "challengeID" with
  | Some c, Some i =>
      (post AuthenticationResponseUrl
         [("challengeID"%string, to_text i);
          ("credential"%string, stringify (assertionJSON c));
          ("username"%string, shown (g_authenticatingUsername g))]
         authenticateResult, g)
  | _, _ => (Threw, g)
  end.

(** requestAuthentication, app.html:155-170, and authenticate, 177-180. *)
Definition authenticateGot (c : option ass_cred) (g : globals) : task * globals :=
  (Returned assertAuthentication,
   {| g_registeredUsername := g_registeredUsername g;
      g_registrationRequest := g_registrationRequest g;
      g_authenticationRequest := g_authenticationRequest g;
      g_authenticatingUsername := g_authenticatingUsername g;
      g_cco := g_cco g; g_cro := g_cro g; g_attestation := g_attestation g;
      g_assertion := c; g_status := g_status g; g_input := g_input g |}).
Definition authenticateOptions (username : jstring) (j : jsval) (g : globals) : task * globals :=
  let g1 := {| g_registeredUsername := g_registeredUsername g;
               g_registrationRequest := g_registrationRequest g;
               g_authenticationRequest := j;
               g_authenticatingUsername := g_authenticatingUsername g;
               g_cco := g_cco g; g_cro := g_cro g; g_attestation := g_attestation g;
               g_assertion := g_assertion g; g_status := g_status g; g_input := g_input g |} in
  match o <~ get j "requestOptions" ;; parseRequestOptions o with
  | None => (Threw, g1)
  | Some o =>
      (Get o authenticateGot,
       {| g_registeredUsername := g_registeredUsername g;
          g_registrationRequest := g_registrationRequest g;
          g_authenticationRequest := j;
          g_authenticatingUsername := Some username;
          g_cco := g_cco g; g_cro := o; g_attestation := g_attestation g;
          g_assertion := g_assertion g; g_status := g_status g; g_input := g_input g |})
  end.
Definition authenticateArrived (username : jstring) (r : N * pystr) (g : globals) : task * globals :=
  if response_ok r then (ReadJson (snd r) (authenticateOptions username), g)
  else (Threw, setStatus (lit "Failed to request authentication...") g).
Definition authenticate (g : globals) : task * globals :=
  let username := g_input g in
  (post AuthenticationRequestUrl [("username"%string, username)] (authenticateArrived username),
   setStatus (lit "Requesting authentication for username " ++ username ++ lit ".") g).

(** ** Browser, server and user together *)

(** The server's side of HTTP: [replaced] as in Form.v, [J] and [repr] as in Dumps.v. *)
Variable W : World.
Variable E : appenv.
Variable J : jsonenv.
Variable repr : N -> pystr.
Variable replaced : bytes -> pystr.

(** The routes and forms, app.py:149-151, 192-198, 234-236, 276-282. *)
Definition to_request (u : endpoint) (body : list N) : request :=
  let form := form_decode replaced body in
  let field name := form_field (lit name) form in
  match u with
  | RegistrationRequestUrl => RegistrationRequest (field "username"%string)
  | RegistrationResponseUrl =>
      RegistrationResponse (field "challengeID"%string) (field "credential"%string)
                           (field "username"%string)
  | AuthenticationRequestUrl => AuthenticationRequest (field "username"%string)
  | AuthenticationResponseUrl =>
      AuthenticationResponse (field "challengeID"%string) (field "credential"%string)
                             (field "username"%string)
  end.
(** Status and body of an answer, app.py:182-189, 266-273; Flask answers 500 to an exception. *)
Definition to_response (q : request) (r : reply) : N * pystr :=
  match r with
  | Options id v =>
      match options_body J repr (match q with RegistrationRequest _ => "creationOptions"
                                         | _ => "requestOptions" end) id v with
      | WOk t => (200, t)
      | WRaise _ => (500, lit "Internal Server Error")
      end
  | Reply s t => (s, lit t)
  | ServerError _ => (500, lit "Internal Server Error")
  end.

(** The page, its async functions in the order of the clicks, and the requests the server has
    handled so far (from all clients). *)
Record system := { sy_page : globals; sy_tasks : list task; sy_log : list (chance * request) }.
Definition started : system := {| sy_page := loaded; sy_tasks := []; sy_log := [] |}.

Inductive event :=
| Type_ (s : jstring)             (** the user edits the input element *)
| ClickRegister | ClickAuthenticate  (** app.html:188-189 *)
| Serve (i : nat) (c : chance)    (** the server handles the request of function [i] *)
| Deliver (i : nat)               (** its answer arrives *)
| Parse (i : nat)                 (** response.json() settles *)
| Created (i : nat) (c : option att_cred) | Got (i : nat) (c : option ass_cred)  (** create or get settles, with a credential or null *)
| Resume (i : nat)                (** [await] of an async function that returned *)
| Reject (i : nat)                (** a promise is rejected: no network, no authenticator *)
| Other (x : chance * request).   (** the server handles a request of another client *)

(** [l[i] = x]. *)
Fixpoint update {A} (l : list A) (i : nat) (x : A) : list A :=
  match l, i with
  | [], _ => []
  | _ :: t, O => x :: t
  | y :: t, S j => y :: update t j x
  end.
(** Function number [i] goes on; a click starts a function; the user types. *)
Definition continue (s : system) (i : nat) (p : task * globals) : system :=
  {| sy_page := snd p; sy_tasks := update (sy_tasks s) i (fst p); sy_log := sy_log s |}.
Definition click (s : system) (p : task * globals) : system :=
  {| sy_page := snd p; sy_tasks := sy_tasks s ++ [fst p]; sy_log := sy_log s |}.
Definition with_input (s : jstring) (g : globals) : globals :=
  {| g_registeredUsername := g_registeredUsername g;
     g_registrationRequest := g_registrationRequest g;
     g_authenticationRequest := g_authenticationRequest g;
     g_authenticatingUsername := g_authenticatingUsername g;
     g_cco := g_cco g; g_cro := g_cro g; g_attestation := g_attestation g;
     g_assertion := g_assertion g; g_status := g_status g; g_input := s |}.

(** One event; one that does not fit the state changes nothing. *)
Definition happens (s : system) (e : event) : system :=
  match e with
  | Type_ t => {| sy_page := with_input t (sy_page s); sy_tasks := sy_tasks s; sy_log := sy_log s |}
  | ClickRegister => click s (register (sy_page s))
  | ClickAuthenticate => click s (authenticate (sy_page s))
  | Serve i c =>
      match nth_error (sy_tasks s) i with
      | Some (Fetch u body k) =>
          let q := to_request u body in
          let r := fst (serve W E (snd (serve_all W E empty_db (sy_log s))) (c, q)) in
          {| sy_page := sy_page s; sy_tasks := update (sy_tasks s) i (Arrived (to_response q r) k);
             sy_log := sy_log s ++ [(c, q)] |}
      | _ => s
      end
  | Deliver i =>
      match nth_error (sy_tasks s) i with
      | Some (Arrived r k) => continue s i (k r (sy_page s))
      | _ => s
      end
  | Parse i =>
      match nth_error (sy_tasks s) i with
      | Some (ReadJson t k) =>
          continue s i match br_parse B t with
                       | Some j => k j (sy_page s)
                       | None => (Threw, sy_page s)
                       end
      | _ => s
      end
  | Created i c =>
      match nth_error (sy_tasks s) i with
      | Some (Create _ k) => continue s i (k c (sy_page s))
      | _ => s
      end
  | Got i c =>
      match nth_error (sy_tasks s) i with
      | Some (Get _ k) => continue s i (k c (sy_page s))
      | _ => s
      end
  | Resume i =>
      match nth_error (sy_tasks s) i with
      | Some (Returned k) => continue s i (k (sy_page s))
      | _ => s
      end
  | Reject i =>
      match nth_error (sy_tasks s) i with
      | Some (Fetch _ _ _ | Arrived _ _ | ReadJson _ _ | Create _ _ | Get _ _) =>
          continue s i (Threw, sy_page s)
      | _ => s
      end
  | Other x => {| sy_page := sy_page s; sy_tasks := sy_tasks s; sy_log := sy_log s ++ [x] |}
  end.
(** Events in their order. *)
Definition run_page (s : system) (es : list event) : system := fold_left happens es s.
End Page.
