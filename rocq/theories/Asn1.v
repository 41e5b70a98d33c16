(** * Asn1: /repo/webauthn_rp/asn1.py, class by class, and what attesters.py:207-238
    reads of a decoded KeyDescription. *)
From Coq Require Import List NArith ZArith Bool String.
From Verif Require Import Base World Der.
Import ListNotations.
Local Open Scope string_scope.
Local Open Scope N_scope.

(** NamedType(name, t) *)
Definition required (name : string) (t : asn1) : component := (name, false, None, t).
(** OptionalNamedType(name, t.subtype(explicitTag=Tag(tagClassContext, ..., n))) *)
Definition optional (name : string) (t : asn1) (n : N) : component := (name, true, Some n, t).

(** SecurityLevel and VerifiedBootState, asn1.py:16-34: Enumerated.  The names are put in
    [componentType], which Enumerated does not look at: any number is allowed. *)
Definition security_level : asn1 := AEnumerated.
Definition verified_boot_state : asn1 := AEnumerated.

(** RootOfTrust, asn1.py:37-48. *)
Definition root_of_trust : list component :=
  [ required "verifiedBootKey" AOctetString;
    required "deviceLocked" ABoolean;
    required "verifiedBootState" verified_boot_state;
    required "verifiedBootHash" AOctetString ].

(** AuthorizationList, asn1.py:51-206. *)
Definition authorization_list : list component :=
  [ optional "purpose" (ASetOf AInteger) 1;
    optional "algorithm" AInteger 2;
    optional "keySize" AInteger 3;
    optional "digest" (ASetOf AInteger) 5;
    optional "padding" (ASetOf AInteger) 6;
    optional "ecCurve" AInteger 10;
    optional "rsaPublicExponent" AInteger 200;
    optional "rollbackResistance" ANull 303;
    optional "activeDateTime" AInteger 400;
    optional "originationExpireDateTime" AInteger 401;
    optional "usageExpireDateTime" AInteger 402;
    optional "noAuthRequired" ANull 503;
    optional "userAuthType" AInteger 504;
    optional "authTimeout" AInteger 505;
    optional "allowWhileOnBody" ANull 506;
    optional "trustedUserPresenceRequired" ANull 507;
    optional "trustedConfirmationRequired" ANull 508;
    optional "unlockedDeviceRequired" ANull 509;
    optional "allApplications" ANull 600;
    optional "applicationId" AOctetString 601;
    optional "creationDateTime" AInteger 701;
    optional "origin" AInteger 702;
    optional "rollbackResistant" ANull 703;
    optional "rootOfTrust" (ASequence root_of_trust) 704;
    optional "osVersion" AInteger 705;
    optional "osPatchLevel" AInteger 706;
    optional "attestationApplicationId" AOctetString 709;
    optional "attestationIdBrand" AOctetString 710;
    optional "attestationIdDevice" AOctetString 711;
    optional "attestationIdProduct" AOctetString 712;
    optional "attestationIdSerial" AOctetString 713;
    optional "attestationIdImei" AOctetString 714;
    optional "attestationIdMeid" AOctetString 715;
    optional "attestationIdManufacturer" AOctetString 716;
    optional "attestationIdModel" AOctetString 717;
    optional "vendorPatchLevel" AInteger 718;
    optional "bootPatchLevel" AInteger 719 ].

(** KeyDescription, asn1.py:209-224. *)
Definition key_description_schema : list component :=
  [ required "attestationVersion" AInteger;
    required "attestationSecurityLevel" security_level;
    required "keymasterVersion" AInteger;
    required "keymasterSecurityLevel" security_level;
    required "attestationChallenge" AOctetString;
    required "uniqueId" AOctetString;
    required "softwareEnforced" (ASequence authorization_list);
    required "teeEnforced" (ASequence authorization_list) ].

(** [int(x)] for the members of a set; the members of a SetOf(Integer()) are integers. *)
Fixpoint ints (l : list dval) : list Z :=
  match l with
  | DInt z :: t => z :: ints t
  | _ :: t => ints t
  | [] => []
  end.

(** The components of an AuthorizationList that attesters.py:219-238 asks for. *)
Definition read_list (l : list (option dval)) : auth_list :=
  {| al_purpose := match slot "purpose" authorization_list l with
                   | Some (DSet s) => Some (ints s) | _ => None end;
     al_all_applications := match slot "allApplications" authorization_list l with
                            | Some _ => true | None => false end;
     al_origin := match slot "origin" authorization_list l with
                  | Some (DInt z) => Some z | _ => None end |}.

(** decode(b, KeyDescription()), attesters.py:207, and the components read after it
    (213-238).  The last branch is not reached: the schema fixes the kinds. *)
Definition decode_key_description (depth : nat) (b : bytes) : wres key_description :=
  match der_decode depth (ASequence key_description_schema) b with
  | Raise (Py e) => WRaise e
  | Raise _ => WRaise EPyAsn1Error (* not reached *)
  | Ok (DSeq l, _) =>
      match slot "attestationChallenge" key_description_schema l,
            slot "softwareEnforced" key_description_schema l,
            slot "teeEnforced" key_description_schema l with
      | Some (DOctets challenge), Some (DSeq se), Some (DSeq tee) =>
          WOk {| kd_challenge := challenge; kd_software := read_list se;
                 kd_tee := read_list tee |}
      | _, _, _ => WRaise EPyAsn1Error
      end
  | Ok _ => WRaise EPyAsn1Error
  end.
