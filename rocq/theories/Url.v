(** * Url: urllib.parse.urlsplit/urlparse (CPython 3.11) and parsers.parse_origin. *)
From Coq Require Import List NArith ZArith Bool String.
From Verif Require Import Base.
Import ListNotations.
Local Open Scope N_scope.
Local Open Scope res_scope.
Local Open Scope list_scope.

(** The two checks of urlsplit that need other tables: [_check_bracketed_host]
    (module ipaddress) and [_checknetloc] (NFKC).  [true] = no ValueError. *)
Record urlenv := {
  ue_bracket_ok : pystr -> bool;
  ue_nfkc_ok : pystr -> bool;
}.

(** [c in s]. *)
Definition mem (c : N) (s : pystr) : bool := existsb (N.eqb c) s.

(** [s.partition(c)]: text before and after the first [c], if any. *)
Fixpoint partition (c : N) (s : pystr) : option (pystr * pystr) :=
  match s with
  | [] => None
  | x :: t => if x =? c then Some ([], t)
              else match partition c t with
                   | Some (a, b) => Some (x :: a, b)
                   | None => None
                   end
  end.

(** [s.rpartition(c)[2]]: text after the last [c], or all of [s]. *)
Fixpoint after_last (c : N) (s : pystr) : pystr :=
  match s with
  | [] => []
  | x :: t => if mem c t then after_last c t
              else if x =? c then t else x :: t
  end.

(** [s.startswith(p)]. *)
Fixpoint starts_with (p s : pystr) : bool :=
  match p, s with
  | [], _ => true
  | x :: p', y :: s' => (x =? y) && starts_with p' s'
  | _, [] => false
  end.

(** [p in s] (substring test). *)
Fixpoint contains (p s : pystr) : bool :=
  starts_with p s || match s with [] => false | _ :: t => contains p t end.

(** [s.lstrip(C0 control or space)] *)
Fixpoint lstrip_c0 (s : pystr) : pystr :=
  match s with
  | [] => []
  | c :: t => if c <=? 32 then lstrip_c0 t else s
  end.

(** Removal of TAB, CR, LF. *)
Definition remove_unsafe (s : pystr) : pystr :=
  filter (fun c => negb ((c =? 9) || (c =? 13) || (c =? 10))) s.

(** The classes of characters of urllib.parse (scheme_chars), and [c.lower()] for ASCII. *)
Definition is_alpha (c : N) : bool :=
  ((65 <=? c) && (c <=? 90)) || ((97 <=? c) && (c <=? 122)).
Definition is_digit (c : N) : bool := (48 <=? c) && (c <=? 57).
Definition scheme_char (c : N) : bool :=
  is_alpha c || is_digit c || (c =? 43) || (c =? 45) || (c =? 46).
Definition to_lower (c : N) : N := if (65 <=? c) && (c <=? 90) then c + 32 else c.

(** Scheme part of urlsplit: (scheme, rest). *)
Definition split_scheme (url : pystr) : pystr * pystr :=
  match partition 58 url with
  | Some (sch, rest) =>
      match sch with
      | c :: _ => if is_alpha c && forallb scheme_char sch
                  then (map to_lower sch, rest) else ([], url)
      | [] => ([], url)
      end
  | None => ([], url)
  end.

(** The delimiters '/', '?' and '#' of _splitnetloc. *)
Definition netloc_delim (c : N) : bool := (c =? 47) || (c =? 63) || (c =? 35).

(** [_splitnetloc]: up to the first of '/', '?', '#'. *)
Fixpoint split_netloc (s : pystr) : pystr * pystr :=
  match s with
  | [] => ([], [])
  | c :: t => if netloc_delim c then ([], s)
              else let '(a, b) := split_netloc t in (c :: a, b)
  end.

(** urllib.parse.ParseResult. *)
Record urlparts := {
  up_scheme : pystr; up_netloc : pystr; up_path : pystr; up_params : pystr;
  up_query : pystr; up_fragment : pystr;
}.

(** [s.split(c, 1)] when [c in s], else [(s, '')]. *)
Definition split1 (c : N) (s : pystr) : pystr * pystr :=
  match partition c s with Some p => p | None => (s, []) end.

(** [_splitparams]: a ';' in the last path segment. *)
Fixpoint last_slash (s : pystr) : option (pystr * pystr) :=
  (* (text before the last '/', text from it on) *)
  match s with
  | [] => None
  | c :: t => match last_slash t with
              | Some (a, b) => Some (c :: a, b)
              | None => if c =? 47 then Some ([], s) else None
              end
  end.
Definition split_params (url : pystr) : pystr * pystr :=
  match last_slash url with
  | Some (a, b) => match partition 59 b with
                   | Some (x, y) => (a ++ x, y)
                   | None => (url, [])
                   end
  | None => match partition 59 url with
            | Some p => p
            | None => (removelast url, url) (* url[:-1], url[0:]; not reached *)
            end
  end.

(** The [uses_params] list of urllib.parse. *)
Definition uses_params : list pystr :=
  map lit [""; "ftp"; "hdl"; "prospero"; "http"; "imap"; "https"; "shttp"; "rtsp";
           "rtsps"; "rtspu"; "sip"; "sips"; "mms"; "sftp"; "tel"]%string.

Section WithEnv.
Variable UE : urlenv.

(** urllib.parse.urlparse(url). *)
Definition urlparse (url0 : pystr) : res urlparts :=
  let url := remove_unsafe (lstrip_c0 url0) in
  let '(scheme, url) := split_scheme url in
  '(netloc, url) <-
    match url with
    | 47 :: 47 :: r =>
        let '(netloc, rest) := split_netloc r in
        let op := mem 91 netloc in
        let cl := mem 93 netloc in
        check (Bool.eqb op cl) (Py EValueError) ;;;
        (if op && cl then
           let inner := fst (split1 93 (snd (split1 91 netloc))) in
           check (ue_bracket_ok UE inner) (Py EValueError)
         else Ok tt) ;;;
        Ok (netloc, rest)
    | _ => Ok ([], url)
    end ;;
  let '(url, fragment) := split1 35 url in
  let '(url, query) := split1 63 url in
  check (forallb (fun c => c <? 128) netloc || ue_nfkc_ok UE netloc) (Py EValueError) ;;;
  let '(path, params) :=
    if existsb (str_eqb scheme) uses_params && mem 59 url then split_params url
    else (url, []) in
  Ok {| up_scheme := scheme; up_netloc := netloc; up_path := path;
        up_params := params; up_query := query; up_fragment := fragment |}.

(** [_hostinfo[1]]: the text of the port. *)
Definition port_text (netloc : pystr) : pystr :=
  let hostinfo := after_last 64 netloc in
  match partition 91 hostinfo with
  | Some (_, bracketed) => snd (split1 58 (snd (split1 93 bracketed)))
  | None => snd (split1 58 hostinfo)
  end.

(** [int(s)] for ASCII decimal digits. *)
Definition dec_value (s : pystr) : N := fold_left (fun a c => a * 10 + (c - 48)) s 0.

(** [ParseResult.port] *)
Definition url_port (netloc : pystr) : res (option N) :=
  match port_text netloc with
  | [] => Ok None
  | p => if forallb is_digit p then
           if dec_value p <=? 65535 then Ok (Some (dec_value p))
           else Raise (Py EValueError)
         else Raise (Py EValueError)
  end.

(** types.Origin, /repo/webauthn_rp/types.py:99-107. *)
Record origin := { o_scheme : pystr; o_host : pystr; o_port : N }.

(** parsers.parse_origin, /repo/webauthn_rp/parsers.py:54-92
    (default ports: lines 48-51). *)
Definition parse_origin (s : pystr) : res origin :=
  check (contains (lit "://") s) (Lib OriginError) ;;;
  url <- urlparse s ;;
  check (match up_path url, up_params url, up_query url, up_fragment url with
         | [], [], [], [] => true | _, _, _, _ => false end) (Lib OriginError) ;;;
  check (match up_netloc url with [] => false | _ => true end) (Lib OriginError) ;;;
  check (str_eqb (up_scheme url) (lit "http") || str_eqb (up_scheme url) (lit "https"))
        (Lib OriginError) ;;;
  p <- url_port (up_netloc url) ;;
  let port := match p with
              | None => if str_eqb (up_scheme url) (lit "http") then 80 else 443
              | Some n => n
              end in
  Ok {| o_scheme := up_scheme url; o_host := up_netloc url; o_port := port |}.

End WithEnv.

(** Equality of Origins (NamedTuples), types.py:99-107. *)
Definition origin_eqb (a b : origin) : bool :=
  str_eqb (o_scheme a) (o_scheme b) && str_eqb (o_host a) (o_host b)
  && (o_port a =? o_port b).
