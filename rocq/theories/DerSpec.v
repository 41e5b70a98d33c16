(** * DerSpec: encodings of Android key descriptions (X.690 and the Android key
    attestation schema), stated on bytes, independently of the decoder.

    [der = true] asks for the canonical forms of DER as far as lengths, tag numbers and
    integers go; with [der = false] the forms are those of the lenient decoder: lengths and
    tag numbers with leading zeros, integers with redundant octets or none, bytes after
    the item inside an explicit tag. *)
From Coq Require Import List NArith ZArith Bool Sorting.Sorted.
From Coq Require Import Strings.Byte.
From Verif Require Import Base World Types Spec Der.
Import ListNotations.
Local Open Scope N_scope.
Local Open Scope list_scope.

(** X.690 8.1.2: identifier octets. *)
Definition first_octet (cls : tag_class) (constructed : bool) (low : N) : byte :=
  byte_of_N (match cls with Universal => 0 | Application => 64 | Context => 128
                       | Private => 192 end + (if constructed then 32 else 0) + low).

Definition base128 (ds : list N) : N := fold_left (fun a d => a * 128 + d) ds 0.

Definition Identifier (der : bool) (cls : tag_class) (constructed : bool) (n : N)
           (bs : bytes) : Prop :=
  (n < 31 /\ bs = [first_octet cls constructed n])
  \/ exists ds last,
       Forall (fun d => d < 128) ds /\ last < 128 /\ n = base128 (ds ++ [last]) /\
       bs = first_octet cls constructed 31
            :: map (fun d => byte_of_N (128 + d)) ds ++ [byte_of_N last] /\
       (der = true -> 31 <= n /\ hd 1 ds <> 0).

(** X.690 8.1.3: length octets, definite form. *)
Definition Length (der : bool) (n : N) (bs : bytes) : Prop :=
  (n < 128 /\ bs = [byte_of_N n])
  \/ exists body,
       (1 <= List.length body <= 127)%nat /\ be_to_N body = n /\
       bs = byte_of_N (128 + N.of_nat (List.length body)) :: body /\
       (der = true -> 128 <= n /\ hd x01 body <> x00).

Definition Item (der : bool) (cls : tag_class) (constructed : bool) (n : N)
           (content bs : bytes) : Prop :=
  exists i l, Identifier der cls constructed n i /\
              Length der (N.of_nat (List.length content)) l /\ bs = i ++ l ++ content.

(** X.690 8.3: two's complement. *)
Definition TwosComplement (der : bool) (z : Z) (content : bytes) : Prop :=
  let m := (256 ^ Z.of_nat (List.length content))%Z in
  (- m <= 2 * z < m)%Z /\ (z mod m = Z.of_N (be_to_N content))%Z /\
  (der = true ->
   content <> [] /\
   (List.length content = 1%nat
    \/ ~ (- (256 ^ Z.of_nat (List.length content - 1))
          <= 2 * z < 256 ^ Z.of_nat (List.length content - 1))%Z)).

Definition IntegerItem der (tag : N) (z : Z) (bs : bytes) : Prop :=
  exists content, TwosComplement der z content /\ Item der Universal false tag content bs.
Definition BooleanItem der (b : bool) (bs : bytes) : Prop :=
  exists constructed, (der = true -> constructed = false) /\
    Item der Universal constructed 1 [if b then xff else x00] bs.
Definition OctetsItem der (o bs : bytes) : Prop := Item der Universal false 4 o bs.
Definition NullItem der (bs : bytes) : Prop := Item der Universal false 5 [] bs.
Definition SetItem der (zs : list Z) (bs : bytes) : Prop :=
  exists parts, Forall2 (IntegerItem der 2) zs parts /\
                Item der Universal true 17 (concat parts) bs.

(** ** The Android schema, attestation version 3 *)

(** Authorizations by kind of value. *)
Inductive authorization :=
| FInt (z : Z) | FSet (zs : list Z) | FNull | FOctets (o : bytes)
| FRoot (boot_key : bytes) (locked : bool) (boot_state : Z) (boot_hash : bytes).

Inductive kind := KInt | KSet | KNull | KOctets | KRoot.
Definition kind_of (a : authorization) : kind :=
  match a with FInt _ => KInt | FSet _ => KSet | FNull => KNull | FOctets _ => KOctets
          | FRoot _ _ _ _ => KRoot end.

(** Keymaster tag numbers. *)
Definition android_tags : list (N * kind) :=
  [ (1, KSet) (* purpose *); (2, KInt) (* algorithm *); (3, KInt) (* keySize *);
    (5, KSet) (* digest *); (6, KSet) (* padding *); (10, KInt) (* ecCurve *);
    (200, KInt) (* rsaPublicExponent *); (303, KNull) (* rollbackResistance *);
    (400, KInt) (* activeDateTime *); (401, KInt); (402, KInt) (* expiry *);
    (503, KNull) (* noAuthRequired *); (504, KInt) (* userAuthType *);
    (505, KInt) (* authTimeout *); (506, KNull); (507, KNull); (508, KNull); (509, KNull);
    (600, KNull) (* allApplications *); (601, KOctets) (* applicationId *);
    (701, KInt) (* creationDateTime *); (702, KInt) (* origin *);
    (703, KNull) (* rollbackResistant *); (704, KRoot) (* rootOfTrust *);
    (705, KInt) (* osVersion *); (706, KInt) (* osPatchLevel *);
    (709, KOctets) (* attestationApplicationId *); (710, KOctets); (711, KOctets);
    (712, KOctets); (713, KOctets); (714, KOctets); (715, KOctets); (716, KOctets);
    (717, KOctets); (718, KInt) (* vendorPatchLevel *); (719, KInt) (* bootPatchLevel *) ].

Definition AuthorizationItem der (a : authorization) (bs : bytes) : Prop :=
  match a with
  | FInt z => IntegerItem der 2 z bs
  | FSet zs => SetItem der zs bs
  | FNull => NullItem der bs
  | FOctets o => OctetsItem der o bs
  | FRoot k l s h =>
      exists bk bl bst bh,
        OctetsItem der k bk /\ BooleanItem der l bl /\ IntegerItem der 10 s bst /\
        OctetsItem der h bh /\ Item der Universal true 16 (bk ++ bl ++ bst ++ bh) bs
  end.

(** [\[n\] EXPLICIT a] *)
Definition FieldItem der (f : N * authorization) (bs : bytes) : Prop :=
  exists inner ignored,
    AuthorizationItem der (snd f) inner /\ (der = true -> ignored = []) /\
    Item der Context true (fst f) (inner ++ ignored) bs.

(** AuthorizationList: known tags in increasing order, each with a value of its kind. *)
Definition KnownFields (l : list (N * authorization)) : Prop :=
  StronglySorted N.lt (map fst l) /\
  Forall (fun f => In (fst f, kind_of (snd f)) android_tags) l.

Definition ListItem der (l : list (N * authorization)) (bs : bytes) : Prop :=
  KnownFields l /\
  exists parts, Forall2 (FieldItem der) l parts /\
                Item der Universal true 16 (concat parts) bs.

Record description := {
  de_attestation_version : Z;
  de_attestation_level : Z;
  de_keymaster_version : Z;
  de_keymaster_level : Z;
  de_challenge : bytes;
  de_unique_id : bytes;
  de_software : list (N * authorization);
  de_tee : list (N * authorization);
}.

Definition DescriptionItem der (d : description) (bs : bytes) : Prop :=
  exists b1 b2 b3 b4 b5 b6 b7 b8,
    IntegerItem der 2 (de_attestation_version d) b1 /\
    IntegerItem der 10 (de_attestation_level d) b2 /\
    IntegerItem der 2 (de_keymaster_version d) b3 /\
    IntegerItem der 10 (de_keymaster_level d) b4 /\
    OctetsItem der (de_challenge d) b5 /\
    OctetsItem der (de_unique_id d) b6 /\
    ListItem der (de_software d) b7 /\
    ListItem der (de_tee d) b8 /\
    Item der Universal true 16 (b1 ++ b2 ++ b3 ++ b4 ++ b5 ++ b6 ++ b7 ++ b8) bs.

(** What the attester looks at. *)
Definition ListRead (l : list (N * authorization)) (a : auth_list) : Prop :=
  (forall zs, al_purpose a = Some zs <-> In (1, FSet zs) l) /\
  (al_all_applications a = true <-> In (600, FNull) l) /\
  (forall z, al_origin a = Some z <-> In (702, FInt z) l).
Definition DescriptionRead (d : description) (kd : key_description) : Prop :=
  kd_challenge kd = de_challenge d /\
  ListRead (de_software d) (kd_software kd) /\ ListRead (de_tee d) (kd_tee kd).

(** Android Key attestation (WebAuthn 8.4) as in Spec.v, with the extension of the leaf
    certificate spelt out: bytes of a key description for this client data hash, without
    allApplications, with origin GENERATED (0) and purpose SIGN (2) enforced by the TEE. *)
Definition AndroidDerSpec (W : World) (a : option (form * alg)) (sig : option bytes)
           (x5c : list bytes) (o : att_obj) (auth_data_bytes client_data_hash : bytes)
           (c : cert) : Prop :=
  exists leaf chain certpk ad acd k ko s ext d p ignored purposes,
    x5c = leaf :: chain /\ w_load_cert W leaf = WOk c /\
    ce_public_key c = WOk certpk /\
    ao_auth_data o = Some ad /\ ad_attested ad = Some acd /\ at_key acd = Some k /\
    KeyObject W k ko /\
    sig = Some s /\
    CertVerifies W certpk a s (auth_data_bytes ++ client_data_hash) /\
    w_spki W ko = w_spki W certpk /\
    ce_keydesc c = WOk (Some ext) /\
    ext = p ++ ignored /\ DescriptionItem false d p /\
    de_challenge d = client_data_hash /\
    ~ In (600, FNull) (de_software d) /\ ~ In (600, FNull) (de_tee d) /\
    In (702, FInt 0) (de_tee d) /\ In (1, FSet purposes) (de_tee d) /\ In 2%Z purposes.

(** Explicit tags within explicit tags. *)
Inductive Nested : nat -> bytes -> Prop :=
| Nested_inner bs : Nested 0 bs
| Nested_tag k cls n content bs ignored :
    cls <> Universal -> Item false cls true n content bs -> Nested k content ->
    Nested (S k) (bs ++ ignored).
