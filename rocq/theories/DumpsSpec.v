(** * DumpsSpec: what writing JSON is meant to preserve. *)
From Coq Require Import List NArith ZArith Bool String.
From Verif Require Import Base PyVal Json JsonSpec Types Builders.
Import ListNotations.
Local Open Scope N_scope.
Local Open Scope list_scope.

(** A high surrogate directly before a low one: as escapes they read as one character. *)
Definition SplitPair (s : pystr) : Prop :=
  exists a h l b, s = a ++ h :: l :: b /\ High h /\ Low l.
Definition CodePoints (s : pystr) : Prop := Forall (fun c => c <= 0x10FFFF) s.

(** The number of decimal digits of [z] is within the interpreter's limit. *)
Definition Short (E : jsonenv) (z : Z) : Prop :=
  forall m, je_max_digits E = Some m -> 0 < m /\ (Z.abs z < 10 ^ Z.of_N m)%Z.

(** A number whose text, by float.__repr__, is ASCII and reads as the same number. *)
Definition Finite (b : N) : Prop := b < 2 ^ 64 /\ N.land (N.shiftr b 52) 2047 <> 2047.
Definition printable (c : N) : Prop := 32 <= c <= 126.
Definition Printed (E : jsonenv) (repr : N -> pystr) (b : N) : Prop :=
  Finite b /\ Forall printable (repr b) /\ JNumber E (repr b) (VFloat b).
(** Or one of the three numbers that the json module writes by name, and reads as that number. *)
Definition Named (E : jsonenv) (b : N) : Prop :=
  (b = 0x7FF0000000000000 /\ je_float E (lit "inf") = b) \/
  (b = 0xFFF0000000000000 /\ je_float E (lit "-inf") = b) \/
  (N.land (N.shiftr b 52) 2047 = 2047 /\ N.land b (2 ^ 52 - 1) <> 0 /\ je_float E (lit "nan") = b).
Definition FloatReads (E : jsonenv) (repr : N -> pystr) (b : N) : Prop :=
  Printed E repr b \/ Named E b.

(** Values that JSON text carries unchanged, at most [n] levels deep. *)
Inductive Carried (E : jsonenv) (repr : N -> pystr) : nat -> pyval -> Prop :=
| car_none n : Carried E repr n VNone
| car_bool n b : Carried E repr n (VBool b)
| car_int n z : Short E z -> Carried E repr n (VInt z)
| car_float n b : FloatReads E repr b -> Carried E repr n (VFloat b)
| car_str n s : CodePoints s -> ~ SplitPair s -> Carried E repr n (VStr s)
| car_list n l : Forall (Carried E repr n) l -> Carried E repr (S n) (VList l)
| car_dict n d :
    (forall k w, In (k, w) d -> exists s, k = VStr s /\ CodePoints s /\ ~ SplitPair s) ->
    NoDup (map fst d) -> Forall (fun kv => Carried E repr n (snd kv)) d ->
    Carried E repr (S n) (VDict d).

(** [Below n v u]: [u] is [n] levels inside [v], as an item, a value or a name. *)
Inductive Below : nat -> pyval -> pyval -> Prop :=
| below_here v : Below 0 v v
| below_list n l x u : In x l -> Below n x u -> Below (S n) (VList l) u
| below_tuple n l x u : In x l -> Below n x u -> Below (S n) (VTuple l) u
| below_value n d k x u : In (k, x) d -> Below n x u -> Below (S n) (VDict d) u.

(** Why a value cannot be written under the recursion limit [depth], and the exception raised. *)
Inductive DumpDefect (E : jsonenv) (depth : nat) (v : pyval) : pyexn -> Prop :=
| dd_bytes n b : Below n v (VBytes b) -> DumpDefect E depth v ETypeError
| dd_frozen n m : Below n v (VFrozen m) -> DumpDefect E depth v ETypeError
| dd_other n t i : Below n v (VOther t i) -> DumpDefect E depth v ETypeError
| dd_key n d k x : Below n v (VDict d) -> In (k, x) d ->
    (forall s, k <> VStr s) -> (forall b, k <> VFloat b) -> (forall b, k <> VBool b) ->
    (forall z, k <> VInt z) -> k <> VNone -> DumpDefect E depth v ETypeError
| dd_long n z : Below n v (VInt z) -> ~ Short E z -> DumpDefect E depth v EValueError
| dd_long_key n d z x : Below n v (VDict d) -> In (VInt z, x) d -> ~ Short E z ->
    DumpDefect E depth v EValueError
| dd_deep u : Below depth v u ->
    (exists l, u = VList l \/ u = VTuple l) \/ (exists d, u = VDict d) ->
    DumpDefect E depth v ERecursionError.

(** ** Options whose members JSON text carries unchanged *)
Definition PlainText (s : pystr) : Prop := CodePoints s /\ ~ SplitPair s.
Definition each {A} (P : A -> Prop) (o : option A) : Prop := forall a, o = Some a -> P a.
Definition PlainRp (r : rp_entity) : Prop :=
  PlainText (rp_name r) /\ each PlainText (rp_icon r) /\ PlainText (rp_id r).
Definition PlainUser (u : user_entity) : Prop :=
  PlainText (us_name u) /\ each PlainText (us_icon u) /\ PlainText (us_display_name u).
Definition PlainInputs (E : jsonenv) (repr : N -> pystr) (e : ext_inputs) : Prop :=
  each PlainText (ei_appid e) /\ each PlainText (ei_tx_auth_simple e) /\
  each (fun x => PlainText (fst x)) (ei_tx_auth_generic e) /\
  each (fun x => FloatReads E repr (fst x) /\ FloatReads E repr (snd x)) (ei_biometric_perf_bounds e).
Definition PlainCreation (E : jsonenv) (repr : N -> pystr) (o : creation_options) : Prop :=
  PlainRp (co_rp o) /\ PlainUser (co_user o) /\ each (Short E) (co_timeout o) /\
  each (PlainInputs E repr) (co_extensions o).
Definition PlainRequest (E : jsonenv) (repr : N -> pystr) (o : request_options) : Prop :=
  each (Short E) (ro_timeout o) /\ each PlainText (ro_rp_id o) /\
  each (PlainInputs E repr) (ro_extensions o).

(** The limits of the interpreter: at least 640 digits (sys.int_info.str_digits_check_threshold)
    and room for the seven levels of the answers. *)
Definition limits (E : jsonenv) : Prop :=
  (forall m, je_max_digits E = Some m -> 640 <= m) /\ (7 <= je_depth E)%nat.
