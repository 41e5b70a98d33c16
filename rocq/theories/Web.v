(** * Web: several pages of the example application with its server.

    Each page is /repo/examples/flask/templates/app.html as in Page.v, in a window of its own;
    the server is /repo/examples/flask/app.py as in AppConc.v, with requests of all pages and
    of other clients in flight together.  Between them only the network: a request arrives at
    some time after fetch (app.html:25-31), its answer at some time after the handler has
    ended, or never. *)
From Coq Require Import List NArith ZArith Bool String.
From Verif Require Import Base PyVal Json Types World App Dumps Form Page AppConc.
Import ListNotations.
Local Open Scope list_scope.

(** The global variables of a page and its functions as in Page.v; [pg_open] has the pair
    [(i, j)] while function [i] waits for the answer to request [j] of the server. *)
Record page := { pg_globals : globals; pg_tasks : list task; pg_open : list (nat * nat) }.
Definition new_page : page := {| pg_globals := loaded; pg_tasks := []; pg_open := [] |}.
Definition request_of (i : nat) (g : page) : option nat :=
  option_map snd (find (fun p => Nat.eqb (fst p) i) (pg_open g)).
Definition closed (i : nat) (l : list (nat * nat)) : list (nat * nat) :=
  filter (fun p => negb (Nat.eqb (fst p) i)) l.

(** All pages (app.html) and the server (app.py); before the first page is loaded. *)
Record web := { wb_pages : list page; wb_server : server }.
Definition new_web : web := {| wb_pages := []; wb_server := new_server |}.

Inductive web_event :=
| Load                                   (** a page is loaded *)
| At (p : nat) (e : event)               (** something happens in page [p] *)
| Send (p i : nat) (c : chance)          (** the request of function [i] of page [p] arrives *)
| Answer (p i : nat)                     (** its answer is sent and arrives *)
| Server (e : sv_event).                 (** a handler proceeds, a statement fails, or another
                                             client's request arrives *)

Section Web.
Variable B : browser.
Variable W : World.
Variable E : appenv.
Variable J : jsonenv.
Variable repr : N -> pystr.
Variable replaced : bytes -> pystr.

(** A page by itself; what it asks the server is not in its log. *)
Definition view (g : page) : system :=
  {| sy_page := pg_globals g; sy_tasks := pg_tasks g; sy_log := [] |}.
(** The events of Page.v but for those of the server.  A fetch that is rejected is no longer
    waited for; its request may be handled all the same. *)
Definition local (g : page) (e : event) : page :=
  match e with
  | Serve _ _ | Other _ => g
  | _ =>
      let s := happens B W E J repr replaced (view g) e in
      {| pg_globals := sy_page s; pg_tasks := sy_tasks s;
         pg_open := match e with Reject i => closed i (pg_open g) | _ => pg_open g end |}
  end.

(** One event: of a page, of a connection, or of the server. *)
Definition web_happens (s : web) (e : web_event) : web :=
  match e with
  | Load => {| wb_pages := wb_pages s ++ [new_page]; wb_server := wb_server s |}
  | At p e =>
      match nth_error (wb_pages s) p with
      | Some g => {| wb_pages := update (wb_pages s) p (local g e); wb_server := wb_server s |}
      | None => s
      end
  | Send p i c =>
      match nth_error (wb_pages s) p with
      | Some g =>
          match nth_error (pg_tasks g) i, request_of i g with
          | Some (Fetch u body _), None =>
              let j := List.length (sv_threads (wb_server s)) in
              {| wb_pages := update (wb_pages s) p
                   {| pg_globals := pg_globals g; pg_tasks := pg_tasks g;
                      pg_open := (i, j) :: pg_open g |};
                 wb_server := happen W E (wb_server s) (Arrive (c, to_request replaced u body)) |}
          | _, _ => s
          end
      | None => s
      end
  | Answer p i =>
      match nth_error (wb_pages s) p with
      | Some g =>
          match nth_error (pg_tasks g) i, request_of i g with
          | Some (Fetch _ _ k), Some j =>
              match nth_error (sv_threads (wb_server s)) j with
              | Some (x, Answered r) =>
                  {| wb_pages := update (wb_pages s) p
                       {| pg_globals := pg_globals g;
                          pg_tasks := update (pg_tasks g) i (Arrived (to_response J repr (snd x) r) k);
                          pg_open := closed i (pg_open g) |};
                     wb_server := wb_server s |}
              | _ => s
              end
          | _, _ => s
          end
      | None => s
      end
  | Server e => {| wb_pages := wb_pages s; wb_server := happen W E (wb_server s) e |}
  end.
(** Events in their order. *)
Definition run_web (s : web) (l : list web_event) : web := fold_left web_happens l s.
End Web.
