(** * Properties C78 and C79: accepted logins and the authenticator. *)
From Coq Require Import List NArith ZArith Bool String.
From Verif Require Import Base PyVal B64 Utf8 Url CaseConv Cbor Types World Parsers Crypto Backends Spec Examples
  OptionSpec App AppSpec AppExamples AppTheorems AppConc AppConcSpec AppConcExamples AppConcInv AppConcTheorems
  AppConcCount AgreeSpec Agree AgreeExamples.
Import ListNotations.
Local Open Scope list_scope.

(** C78: unless signatures are forged, hashes collide or challenges are guessed, a login that
    is accepted was signed by the authenticator whose key was registered for the user, for this
    relying party and origin, after the challenge it signed was sent and at most 60 s before. *)
Theorem C78_agreement :
  forall (W : World) (E : appenv) (depth : nat) (tr tr1 : list (moment (chance * request)))
  (x : chance * request) (tr2 : list (moment (chance * request))) (n n0 : pystr) (id : bytes) (k : pubkey)
  (cdj adb sig : bytes),
  converts E -> decodes_cbor W depth -> 2 <= depth -> hash_32 W ->
  tr = tr1 ++ Server x :: tr2 ->
  Unforged one_by_one W k tr -> NoCollision one_by_one W tr -> Unpredicted (sent_one W E) (sent_one W E) W tr ->
  RegisteredKey W E (at_server tr1) n0 id k ->
  Presents W (snd x) n id cdj adb sig -> answer W E (at_server tr1) x = Success ->
  n = n0 /\
  exists ta y tb tc c cid v m,
    tr1 = ta ++ Server y :: tb ++ Sign adb cdj :: tc /\
    Asks (snd y) m /\ answer W E (at_server ta) y = Options cid v /\ ch_challenge (fst y) = c /\
    (ch_clock (fst x) - ch_clock (fst y) <= 60000)%Z /\
    ClientDataSpec W "webauthn.get" c app_origin None cdj /\
    exists ad, AuthDataSpec W app_rp_id false None adb ad.
Proof. exact (@agreement). Qed.
Print Assumptions C78_agreement.

(** C78: two logins accepted with one credential do not stem from the same signature, nor
    from two with the same counter. *)
Theorem C78_injective :
  forall (W : World) (E : appenv) (tr : list (moment (chance * request))) (id : bytes) (p p' : nat) (adb adb' : bytes),
  AcceptedAt W E tr id p adb -> AcceptedAt W E tr id p' adb' -> counter_of adb = counter_of adb' -> p = p'.
Proof. exact (@accepted_once). Qed.
Print Assumptions C78_injective.

(** C78: no more logins are accepted with a credential than its authenticator signed. *)
Theorem C78_count :
  forall (W : World) (E : appenv) (depth : nat) (tr : list (moment (chance * request))) (n : pystr) (id : bytes)
  (k : pubkey) (ps : list nat),
  converts E -> decodes_cbor W depth -> 2 <= depth -> hash_32 W ->
  Unforged one_by_one W k tr -> NoCollision one_by_one W tr ->
  RegisteredKey W E (at_server tr) n id k ->
  NoDup ps -> (forall p, In p ps -> exists adb, AcceptedAt W E tr id p adb) ->
  List.length ps <= List.length (signatures tr).
Proof. exact (@matching_signatures). Qed.
Print Assumptions C78_count.

Example hyp_agreement :
  exists tr1 tr2 k sig,
    ex_trace = tr1 ++ Server (do_auth "4" "alice" "challenge-4" "cred-1" 7 7000) :: tr2 /\
    decodes_cbor ex_world 900 /\ converts ex_env /\ hash_32 ex_world /\
    Unforged one_by_one ex_world k ex_trace /\ NoCollision one_by_one ex_world ex_trace /\
    Unpredicted (sent_one ex_world ex_env) (sent_one ex_world ex_env) ex_world ex_trace /\
    RegisteredKey ex_world ex_env (at_server tr1) (lit "alice") (blit "cred-1") k /\
    Presents ex_world (snd (do_auth "4" "alice" "challenge-4" "cred-1" 7 7000)) (lit "alice") (blit "cred-1")
      (app_cdj "webauthn.get" (blit "challenge-4")) (app_ad Byte.x05 7 []) sig /\
    answer ex_world ex_env (at_server tr1) (do_auth "4" "alice" "challenge-4" "cred-1" 7 7000) = Success /\
    AcceptedAt ex_world ex_env ex_trace (blit "cred-1") 7 (app_ad Byte.x05 7 []) /\
    List.length (signatures ex_trace) = 3.
Proof.
  destruct present_4 as (sig & P). pose proof P as (i & cr & uh & AU & ID & _).
  assert (S : answer ex_world ex_env (at_server (firstn 7 ex_trace)) (do_auth "4" "alice" "challenge-4" "cred-1" 7 7000) = Success)
    by (vm_compute; reflexivity).
  destruct (c59 ex_world ex_env 900 _ _ _ _ _ ex_converts ex_decodes ltac:(repeat constructor) AU S)
    as (k & _ & _ & _ & _ & RK & _).
  destruct (ex_trace_ok k) as (O1 & O2 & O3).
  exists (firstn 7 ex_trace), (skipn 8 ex_trace), k, sig.
  split; [reflexivity|]. split; [exact ex_decodes|]. split; [exact ex_converts|]. split; [exact toy_hash_32|].
  split; [exact O1|]. split; [exact O2|]. split; [exact O3|]. split; [now rewrite <- ID|]. split; [exact P|].
  split; [exact S|]. split; [|reflexivity].
  exists (firstn 7 ex_trace), (do_auth "4" "alice" "challenge-4" "cred-1" 7 7000), (skipn 8 ex_trace). do 3 eexists.
  split; [reflexivity|]. split; [reflexivity|]. split; [exact P|exact S].
Qed.

(** C78: the same with requests in flight together. *)
Theorem C78_shared_agreement :
  forall (W : World) (E : appenv) (depth : nat) (tr : list (moment sv_event)) (j : nat) (x : chance * request)
  (n n0 : pystr) (id : bytes) (k : pubkey) (cdj adb sig : bytes),
  converts E -> decodes_cbor W depth -> 2 <= depth -> hash_32 W ->
  Unforged arriving W k tr -> NoCollision arriving W tr -> Unpredicted (drawn_shared W E) (sent_shared W E) W tr ->
  AcceptedKey W (Served W E (at_server tr)) n0 id k ->
  Presents W (snd x) n id cdj adb sig -> Replied (Served W E (at_server tr)) j x Success ->
  n = n0 /\
  exists ta tb tc c cid t m,
    tr = ta ++ Sign adb cdj :: tb ++ Server (Arrive x) :: tc /\
    SentChallenge (Served W E (at_server ta)) m c cid t /\ (ch_clock (fst x) - t <= 60000)%Z /\
    ClientDataSpec W "webauthn.get" c app_origin None cdj /\
    exists ad, AuthDataSpec W app_rp_id false None adb ad.
Proof. exact (@shared_agreement). Qed.
Print Assumptions C78_shared_agreement.

Example hyp_shared_agreement :
  exists k sig,
    decodes_cbor ex_world 900 /\ converts ex_env /\ hash_32 ex_world /\
    Unforged arriving ex_world k ex_shared /\ NoCollision arriving ex_world ex_shared /\
    Unpredicted (drawn_shared ex_world ex_env) (sent_shared ex_world ex_env) ex_world ex_shared /\
    AcceptedKey ex_world (Served ex_world ex_env (at_server ex_shared)) (lit "alice") (blit "cred-1") k /\
    Presents ex_world (snd login7) (lit "alice") (blit "cred-1")
      (app_cdj "webauthn.get" (blit "challenge-2")) (app_ad Byte.x05 7 []) sig /\
    Replied (Served ex_world ex_env (at_server ex_shared)) 3 login7 Success /\
    ExclusiveFor ex_world ex_env (blit "cred-1") (at_server ex_shared) /\ List.length (signatures ex_shared) = 2.
Proof.
  destruct present_2 as (sig & P). pose proof P as (i & cr & uh & AU & ID & _).
  assert (S : Replied (Served ex_world ex_env (at_server ex_shared)) 3 login7 Success) by (vm_compute; reflexivity).
  destruct (shared_login ex_world ex_env 900 _ _ _ _ _ _ ex_converts ex_decodes ltac:(repeat constructor) S AU) as
    (cid & m & c & t & hd & k & cdj & adb & sig' & uh' & ad & _ & _ & _ & _ & AK & _).
  destruct (shared_ok k ex_shared (or_introl eq_refl)) as (O1 & O2 & O3). exists k, sig.
  split; [exact ex_decodes|]. split; [exact ex_converts|]. split; [exact toy_hash_32|].
  split; [exact O1|]. split; [exact O2|]. split; [exact O3|]. split; [now rewrite <- ID|]. split; [exact P|].
  split; [exact S|]. split; [|reflexivity]. apply exclusive_for, exclusive_by. vm_compute. reflexivity.
Qed.

(** C79, refuted: with requests in flight together, two logins are accepted although the
    authenticator signed once. *)
Theorem C79_injective_refuted :
  exists W E depth tr n id k j j', Undisturbed (at_server tr) /\
    converts E /\ decodes_cbor W depth /\ 2 <= depth /\ hash_32 W /\
    Unforged arriving W k tr /\ NoCollision arriving W tr /\ Unpredicted (drawn_shared W E) (sent_shared W E) W tr /\
    AcceptedKey W (Served W E (at_server tr)) n id k /\ List.length (signatures tr) = 1 /\ j <> j' /\
    (exists x cdj adb sig, Presents W (snd x) n id cdj adb sig /\
       Replied (Served W E (at_server tr)) j x Success /\ Replied (Served W E (at_server tr)) j' x Success).
Proof. exact c79_refuted. Qed.
Print Assumptions C79_injective_refuted.

(** C79: if no two logins with the credential are handled at the same time, no more are
    accepted than were signed.  Missing: runs in which they overlap. *)
Theorem C79_count_partial :
  forall (W : World) (E : appenv) (depth : nat) (tr : list (moment sv_event)) (n : pystr) (id : bytes) (k : pubkey)
  (js : list nat),
  converts E -> decodes_cbor W depth -> 2 <= depth -> hash_32 W ->
  Unforged arriving W k tr -> NoCollision arriving W tr -> ExclusiveFor W E id (at_server tr) ->
  AcceptedKey W (Served W E (at_server tr)) n id k ->
  NoDup js ->
  (forall j, In j js -> exists x m cdj adb sig, Replied (Served W E (at_server tr)) j x Success /\
     Presents W (snd x) m id cdj adb sig) ->
  List.length js <= List.length (signatures tr).
Proof. exact (@shared_matching). Qed.
Print Assumptions C79_count_partial.
