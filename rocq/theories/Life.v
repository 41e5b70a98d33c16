(** * Life: starting, stopping and killing the example application, examples/flask/app.py:323-332. *)
From Coq Require Import List NArith ZArith Bool String.
From Verif Require Import Base PyVal Types World App Form Page AppConc Routes.
Import ListNotations.
Local Open Scope list_scope.

(** The data base; whether it is in the file DATABASE_PATH (app.py:27), or was removed from there
    while a process has it open; the requests of the running process, if there is one. *)
Record host := { ho_db : database; ho_linked : bool; ho_process : option (list (chance * request * thread)) }.
Definition bare : host := {| ho_db := empty_db; ho_linked := false; ho_process := None |}.

(** The program is started; an HTTP request comes in; a handler executes its next statement, or
    that fails; app.run ends, normally or by an exception such as KeyboardInterrupt; the process
    is killed, so that the finally clause is not executed. *)
Inductive life_event := Start | Incoming (x : chance * http) | Go (i : nat) | Break_ (i : nat) | Stop | Kill.

Section WithWorld.
Variable W : World.
Variable E : appenv.
Variable replaced : bytes -> pystr.
Variable multipart : list N -> list (pystr * pystr).

(** db.create_all, app.py:327: the tables, if they are missing. *)
Definition create_all (o : host) : database := if ho_linked o then ho_db o else empty_db.

(** A statement of the running process. After its file was removed, it goes on with the file that
    it has open; if it opens a new one, there is no table and the statement fails. *)
Definition execute (o : host) (e : sv_event) : host :=
  match ho_process o with
  | Some ts =>
      let s := happen W E {| sv_db := ho_db o; sv_threads := ts |} e in
      {| ho_db := sv_db s; ho_linked := ho_linked o; ho_process := Some (sv_threads s) |}
  | None => o
  end.

(** The main program. If the server is running already, the second process cannot have its port:
    app.run raises, and the finally clause removes the file (app.py:329-331). *)
Definition live (o : host) (e : life_event) : host :=
  match e with
  | Start =>
      match ho_process o with
      | Some ts => {| ho_db := ho_db o; ho_linked := false; ho_process := Some ts |}
      | None => {| ho_db := create_all o; ho_linked := true; ho_process := Some [] |}
      end
  | Incoming (c, h) =>
      match dispatch (ht_method h) (ht_path h) with
      | Some (Handler u) =>
          execute o (Arrive (c, form_request u (request_form replaced multipart (ht_content h) (ht_body h))))
      | _ => o
      end
  | Go i => execute o (Proceed i)
  | Break_ i => execute o (Fail i)
  | Stop => match ho_process o with Some _ => bare | None => o end
  | Kill => {| ho_db := create_all o; ho_linked := ho_linked o; ho_process := None |}
  end.
Definition live_all (o : host) (l : list life_event) : host := fold_left live l o.
End WithWorld.
