(** * AttesterSpec: what the attesters of the library establish. *)
From Coq Require Import List NArith ZArith Bool String.
From Verif Require Import Base PyVal Types World Parsers Crypto Backends Spec.
Import ListNotations.

(** The statement of [o] attests it, with this type and trust path. *)
Inductive AttestedBy (W : World) (o : att_obj) (adb h : bytes) : att_type -> option (list cert) -> Prop :=
| by_none : ao_stmt o = S_None -> AttestedBy W o adb h AT_NONE None
| by_u2f sig x5c c : ao_stmt o = S_U2F sig x5c -> U2FSpec W sig x5c o h c ->
    AttestedBy W o adb h AT_BASIC (Some [c])
| by_android a sig x5c c : ao_stmt o = S_AndroidKey a sig x5c -> AndroidSpec W a sig x5c o adb h c ->
    AttestedBy W o adb h AT_BASIC (Some [c]).
