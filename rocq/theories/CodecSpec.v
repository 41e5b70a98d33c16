(** * CodecSpec: base64, names and origins, written without the code's algorithms. *)
From Coq Require Import List NArith ZArith Bool String.
From Coq Require Import Strings.Byte.
From Verif Require Import Base Url.
Import ListNotations.
Local Open Scope list_scope.

(** ** Base64 (RFC 4648 sections 4 and 5) *)

Definition b64_common : string :=
  "ABCDEFGHIJKLMNOPQRSTUVWXYZabcdefghijklmnopqrstuvwxyz0123456789".
Definition std_alphabet : pystr := lit (b64_common ++ "+/")%string.
Definition url_alphabet : pystr := lit (b64_common ++ "-_")%string.

(** Bits, most significant first. *)
Definition byte_bits (b : byte) : list bool :=
  map (N.testbit (N_of_byte b)) [7; 6; 5; 4; 3; 2; 1; 0]%N.
Definition sextet_bits (v : N) : list bool :=
  map (N.testbit v) [5; 4; 3; 2; 1; 0]%N.
Definition bits_value (l : list bool) : N :=
  fold_left (fun a b => 2 * a + N.b2n b)%N l 0%N.

(** Groups of six bits, the last one filled with zeros. *)
Fixpoint sextets (l : list bool) : list N :=
  match l with
  | [] => []
  | a :: b :: c :: d :: e :: f :: t => bits_value [a; b; c; d; e; f] :: sextets t
  | _ => [bits_value (firstn 6 (l ++ repeat false 6))]
  end.
(** Groups of eight bits, an incomplete last one dropped. *)
Fixpoint octets (l : list bool) : bytes :=
  match l with
  | a :: b :: c :: d :: e :: f :: g :: h :: t =>
      byte_of_N (bits_value [a; b; c; d; e; f; g; h]) :: octets t
  | _ => []
  end.

Definition symbols (alphabet : pystr) (vs : list N) : pystr :=
  map (fun v => nth (N.to_nat v) alphabet 0%N) vs.
Definition rfc4648_unpadded (alphabet : pystr) (b : bytes) : pystr :=
  symbols alphabet (sextets (List.concat (map byte_bits b))).
(** '=' up to a multiple of four symbols. *)
Definition rfc4648 (alphabet : pystr) (b : bytes) : pystr :=
  let s := rfc4648_unpadded alphabet b in
  s ++ repeat 61%N ((4 - List.length s mod 4) mod 4).

(** The value of a symbol, in either alphabet. *)
Fixpoint index_of (c : N) (l : pystr) : option N :=
  match l with
  | [] => None
  | x :: t => if N.eqb x c then Some 0%N else option_map N.succ (index_of c t)
  end.
Definition symbol_value (c : N) : option N :=
  match index_of c url_alphabet with
  | Some v => Some v
  | None => index_of c std_alphabet
  end.
(** Values of the symbols of a text, anything else ignored. *)
Fixpoint symbol_values (s : pystr) : list N :=
  match s with
  | [] => []
  | c :: t => match symbol_value c with
              | Some v => v :: symbol_values t
              | None => symbol_values t
              end
  end.

(** Unpadded base64url text as an encoder writes it: symbols of the alphabet, no dangling
    symbol, unused bits zero. *)
Definition CanonicalUrl (s : pystr) : Prop :=
  exists vs, s = symbols url_alphabet vs /\ Forall (fun v => v < 64)%N vs /\
    match List.length vs mod 4 with
    | 0 => True
    | 1 => False
    | 2 => (last vs 0 mod 16 = 0)%N
    | _ => (last vs 0 mod 4 = 0)%N
    end.

(** The same for one alphabet. *)
Fixpoint values_in (alphabet : pystr) (s : pystr) : list N :=
  match s with
  | [] => []
  | c :: t => match index_of c alphabet with
              | Some v => v :: values_in alphabet t
              | None => values_in alphabet t
              end
  end.

(** ** Names *)

Definition is_az (c : N) : Prop := (97 <= c <= 122)%N.
Definition is_09 (c : N) : Prop := (48 <= c <= 57)%N.

(** Words of lower case letters and digits, the later ones starting with a letter. *)
Definition first_word (w : pystr) : Prop := w <> [] /\ Forall (fun c => is_az c \/ is_09 c) w.
Definition later_word (w : pystr) : Prop :=
  exists c t, w = c :: t /\ is_az c /\ Forall (fun c => is_az c \/ is_09 c) t.

(** Snake case: the words with '_' (95) between. *)
Definition snake (w : pystr) (ws : list pystr) : pystr :=
  w ++ List.concat (map (fun x => 95%N :: x) ws).
(** Camel case: the first letter of the later words in upper case. *)
Definition capitalised (w : pystr) : pystr :=
  match w with [] => [] | c :: t => (c - 32)%N :: t end.
Definition camel (w : pystr) (ws : list pystr) : pystr := w ++ List.concat (map capitalised ws).

(** ** Origins *)

(** [s] is [a], then the first [c], then [b]. *)
Definition first_split (c : N) (s a b : pystr) : Prop := s = a ++ c :: b /\ ~ In c a.

(** Userinfo ends at the last '@'. *)
Definition HostInfo (auth hi : pystr) : Prop :=
  (~ In 64%N auth /\ hi = auth) \/ (exists u, auth = u ++ 64%N :: hi /\ ~ In 64%N hi).

(** What follows the first ':' (58), empty if there is none. *)
Definition after_colon (s p : pystr) : Prop :=
  (~ In 58%N s /\ p = []) \/ (exists a, first_split 58 s a p).
(** Text of the port: after the ':' following the address, which may be bracketed. *)
Inductive PortText (hi : pystr) : pystr -> Prop :=
| pt_plain p : ~ In 91%N hi -> after_colon hi p -> PortText hi p
| pt_open a b : first_split 91 hi a b -> ~ In 93%N b -> PortText hi []
| pt_bracket a b c r p : first_split 91 hi a b -> first_split 93 b c r -> after_colon r p ->
    PortText hi p.

(** Decimal notation. *)
Inductive decimal : pystr -> N -> Prop :=
| dec_one c : is_09 c -> decimal [c] (c - 48)
| dec_more s n c : decimal s n -> is_09 c -> decimal (s ++ [c]) (n * 10 + (c - 48)).

Definition AuthorityPort (auth : pystr) (default port : N) : Prop :=
  exists hi p, HostInfo auth hi /\ PortText hi p /\
    ((p = [] /\ port = default) \/ (decimal p port /\ (port <= 65535)%N)).

(** The two checks left to tables of the standard library. *)
Definition BracketsOk (UE : urlenv) (auth : pystr) : Prop :=
  (~ In 91%N auth /\ ~ In 93%N auth) \/
  (In 93%N auth /\ exists a b inner, first_split 91 auth a b /\
     ((~ In 93%N b /\ inner = b) \/ (exists r, first_split 93 b inner r)) /\
     ue_bracket_ok UE inner = true).
Definition NfkcOk (UE : urlenv) (auth : pystr) : Prop :=
  Forall (fun c => c < 128)%N auth \/ ue_nfkc_ok UE auth = true.

(** Leading blanks and controls, then TAB, CR and LF anywhere, do not count. *)
Definition Cleaned (s t : pystr) : Prop :=
  exists lead body, s = lead ++ body /\ Forall (fun c => c <= 32)%N lead /\
    match body with [] => True | c :: _ => (32 < c)%N end /\
    t = filter (fun c => negb (existsb (N.eqb c) [9; 10; 13]%N)) body.

(** Scheme letters in any case. *)
Definition letter_eq (c l : N) : Prop := c = l \/ c = (l - 32)%N.
Definition scheme_text (sch : pystr) (name : string) : Prop := Forall2 letter_eq sch (lit name).

Definition default_port (scheme : string) : N := if String.eqb scheme "http" then 80%N else 443%N.

(** The strings that denote an origin, and the origin. *)
Definition OriginText (UE : urlenv) (s : pystr) (o : origin) : Prop :=
  (exists a b, s = a ++ lit "://" ++ b) /\
  exists sch auth tail name,
    Cleaned s (sch ++ lit "://" ++ auth ++ tail) /\
    In name ["http"; "https"]%string /\ scheme_text sch name /\ o_scheme o = lit name /\
    auth <> [] /\ (forall c, In c (lit "/?#") -> ~ In c auth) /\ o_host o = auth /\
    In tail [[]; lit "?"; lit "#"; lit "?#"] /\
    BracketsOk UE auth /\ NfkcOk UE auth /\
    AuthorityPort auth (default_port name) (o_port o).

(** Plain host names (no userinfo, brackets or port) and decimal ports. *)
Definition host_name (h : pystr) : Prop :=
  h <> [] /\ Forall (fun c => (32 < c < 128)%N /\ ~ In c (lit "/?#@:[]")) h.
(** "scheme://host" or "scheme://host:port". *)
Definition authority (h : pystr) (p : option pystr) : pystr :=
  match p with None => h | Some t => h ++ lit ":" ++ t end.
Definition origin_text (name : string) (h : pystr) (p : option pystr) : pystr :=
  lit name ++ lit "://" ++ authority h p.

(** A port, when shown, is a decimal number of at most 65535. *)
Definition PortShown (p : option pystr) : Prop :=
  forall t, p = Some t -> exists n, decimal t n /\ (n <= 65535)%N.
