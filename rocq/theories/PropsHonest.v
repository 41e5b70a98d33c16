(** * Properties C71 and C72: honest ceremonies succeed. *)
From Coq Require Import List NArith ZArith Bool String.
From Verif Require Import Base PyVal Url Json JsonSpec Types World Backends Spec History Examples
  App AppSpec AppExamples AppTheorems HonestSpec HonestFacts AppHonest.
Import ListNotations.
Local Open Scope list_scope.

(** The hypotheses on primitives and stores can be met; an honest registration and an
    honest login exist, the latter with extension outputs. *)
Example hyp_conforming : Conforming ex_world 900 ex_json.
Proof. exact ex_conforming. Qed.
Example hyp_faithful : FaithfulStore mem_registrar (fun s id => mem_find id s).
Proof. exact mem_faithful. Qed.
Example hyp_honest_registration : HonestRegistration ex_world 900 (hon_reg 3) ex_raw_id ex_key 3.
Proof. exact hon_registration. Qed.
Example hyp_honest_login :
  HonestLogin ex_world 900 (hon_auth 4) ex_raw_id ex_key ex_user ex_rp 4.
Proof. exact hon_login. Qed.

(** C71: with any registrar, an honest registration reaches it once, with the key, the id
    and the counter of the authenticator. *)
Theorem C71_registration_delivered :
  forall (W : World) (depth : nat) (E : jsonenv), Conforming W depth E ->
  forall {S} (R : registrar S) (s : S) (A : attestation_args) cid k ctr,
  HonestRegistration W depth A cid k ctr ->
  exists att ad acd,
    out_trace (run R s (handle_credential_attestation W A)) =
      [EvAttest (ra_credential A) att AT_NONE (ra_user A) (ra_rp A) None] /\
    ao_auth_data att = Some ad /\ ad_attested ad = Some acd /\
    at_key acd = Some k /\ at_id acd = cid /\ ad_sign_count ad = ctr.
Proof. exact (@c71_delivered). Qed.
Print Assumptions C71_registration_delivered.

(** C71: an honest registration of a new credential succeeds and is stored. *)
Theorem C71_registration :
  forall (W : World) (depth : nat) (E : jsonenv), Conforming W depth E ->
  forall {S} (R : registrar S) (view : S -> bytes -> option cred_data), FaithfulStore R view ->
  forall (s : S) (A : attestation_args) cid k ctr,
  HonestRegistration W depth A cid k ctr -> view s cid = None ->
  registration_succeeds W R s A /\
  view (out_state (run R s (handle_credential_attestation W A))) cid =
    Some {| cdt_key := k; cdt_sign_count := Some (Z.of_N ctr);
            cdt_user := ra_user A; cdt_rp := Some (ra_rp A) |}.
Proof. exact (@c71_registration). Qed.
Print Assumptions C71_registration.

(** C71: an honest login with a larger counter succeeds and moves the counter. *)
Theorem C71_login :
  forall (W : World) (depth : nat) (E : jsonenv), Conforming W depth E ->
  forall {S} (R : registrar S) (view : S -> bytes -> option cred_data), FaithfulStore R view ->
  forall (s : S) (A : assertion_args) cid k user rp ctr stored,
  HonestLogin W depth A cid k user rp ctr ->
  view s cid = Some {| cdt_key := k; cdt_sign_count := stored; cdt_user := user; cdt_rp := Some rp |} ->
  CounterSpec (aa_ignore_clone A) stored ctr ->
  login_succeeds W R s A /\
  view (out_state (run R s (handle_credential_assertion W A))) cid =
    Some {| cdt_key := k; cdt_sign_count := Some (Z.of_N ctr); cdt_user := user; cdt_rp := Some rp |}.
Proof. exact (@c71_login). Qed.
Print Assumptions C71_login.

(** C71: no lock-out.  After an honest registration and any further calls whatever, by
    anyone, an honest login succeeds, provided its counter is larger than the registered
    one and those of all correctly signed assertions for the credential among the calls. *)
Theorem C71_no_lockout :
  forall (W : World) (depth : nat) (E : jsonenv), Conforming W depth E ->
  forall {S} (R : registrar S) (view : S -> bytes -> option cred_data), FaithfulStore R view ->
  forall (s : S) (A0 : attestation_args) (cs : list call) (A : assertion_args) cid k ctr0 ctr,
  HonestRegistration W depth A0 cid k ctr0 -> view s cid = None ->
  (forall c, In c cs -> SignedBelow W cid k ctr c) ->
  HonestLogin W depth A cid k (ra_user A0) (ra_rp A0) ctr -> (ctr0 < ctr)%N ->
  login_succeeds W R (snd (run_history W R s (CAttest A0 :: cs))) A.
Proof. exact (@c71_no_lockout). Qed.
Print Assumptions C71_no_lockout.

(** C71: honest logins with growing counters all succeed, however many. *)
Theorem C71_logins :
  forall (W : World) (depth : nat) (E : jsonenv), Conforming W depth E ->
  forall {S} (R : registrar S) (view : S -> bytes -> option cred_data), FaithfulStore R view ->
  forall cid k user rp (l : list call) n (s : S),
  HonestLogins W depth cid k user rp n l ->
  view s cid = Some {| cdt_key := k; cdt_sign_count := Some (Z.of_N n);
                       cdt_user := user; cdt_rp := Some rp |} ->
  Forall (fun x => snd x = Ok tt) (fst (run_history W R s l)).
Proof. exact (@c71_logins). Qed.
Print Assumptions C71_logins.

(** Register, an attempt with a wrong signature, a replay of the registration, log in. *)
Example hyp_no_lockout :
  let bad := {| aa_credential :=
       {| cr_id := lit "Y3JlZC0x"; cr_type := lit "public-key"; cr_raw_id := ex_raw_id;
          cr_response := AssertionResponse (hon_cdj "webauthn.get") (ex_ext_ad 900) [] None |};
     aa_challenge := ex_challenge; aa_origin := ex_origin;
     aa_rp := Some ex_rp; aa_user := Some ex_user; aa_allow := None; aa_token_binding := None;
     aa_require_uv := true; aa_extensions := None; aa_ignore_clone := true |} in
  login_succeeds ex_world mem_registrar
    (snd (run_history ex_world mem_registrar [] [CAttest (hon_reg 3); CAssert bad; CAttest (hon_reg 3)]))
    (hon_auth 4).
Proof.
  intro bad. eapply (C71_no_lockout ex_world 900 ex_json ex_conforming mem_registrar _ mem_faithful []
    (hon_reg 3) [CAssert bad; CAttest (hon_reg 3)] (hon_auth 4) ex_raw_id ex_key 3 4).
  - exact hon_registration.
  - reflexivity.
  - intros c [<-|[<-|[]]] A cdj adb sig h H1 H2 H3 H4; [|discriminate].
    injection H1 as <-. injection H3 as <- <- <- <-.
    apply CryptoFacts.verify_iff in H4. vm_compute in H4. discriminate.
  - exact hon_login.
  - reflexivity.
Qed.

(** C72: in the example application, whatever was asked before and by whomever, the honest
    answer to a challenge registers a new credential. *)
Theorem C72_registration :
  forall (W : World) (E : appenv) (depth : nat) (JE : jsonenv), converts E -> Conforming W depth JE ->
  forall (l : list (chance * request)) (x : chance * request) i n cr id c t cid k ctr,
  Registers W (snd x) i n cr -> ap_int E i = Some id -> Issued W E l n c id t ->
  (ch_clock (fst x) - t <= 60000)%Z -> AppRegistration W depth cr c cid k ctr ->
  (forall n' k', ~ RegisteredKey W E l n' cid k') ->
  answer W E l x = Success /\ RegisteredKey W E (l ++ [x]) n cid k.
Proof. exact (@c72_registration). Qed.
Print Assumptions C72_registration.

(** C72: and the honest answer with a registered credential logs in, provided its counter is
    larger than those of all correctly signed answers with that credential sent before. *)
Theorem C72_login :
  forall (W : World) (E : appenv) (depth : nat) (JE : jsonenv), converts E -> Conforming W depth JE ->
  forall (l : list (chance * request)) (x : chance * request) i n cr id c t cid k handle ctr,
  Authenticates W (snd x) i n cr -> ap_int E i = Some id -> Issued W E l n c id t ->
  (ch_clock (fst x) - t <= 60000)%Z -> RegisteredKey W E l n cid k -> UserHandle W E l n handle ->
  AppLogin W depth cr c cid k handle ctr -> SentBelow W cid k ctr l ->
  answer W E l x = Success.
Proof. exact (@c72_login). Qed.
Print Assumptions C72_login.

(** C72: both in one history: [x] registers, any requests [l2] follow, [y] logs in. *)
Theorem C72_session :
  forall (W : World) (E : appenv) (depth : nat) (JE : jsonenv), converts E -> Conforming W depth JE ->
  forall (l : list (chance * request)) (x : chance * request) i n cr id c t cid k ctr
         (l2 : list (chance * request)) (y : chance * request) i' cr' id' c' t' handle ctr',
  Registers W (snd x) i n cr -> ap_int E i = Some id -> Issued W E l n c id t ->
  (ch_clock (fst x) - t <= 60000)%Z -> AppRegistration W depth cr c cid k ctr ->
  (forall n' k', ~ RegisteredKey W E l n' cid k') ->
  Authenticates W (snd y) i' n cr' -> ap_int E i' = Some id' ->
  Issued W E (l ++ x :: l2) n c' id' t' ->
  (ch_clock (fst y) - t' <= 60000)%Z -> UserHandle W E (l ++ x :: l2) n handle ->
  AppLogin W depth cr' c' cid k handle ctr' -> SentBelow W cid k ctr' (l ++ x :: l2) ->
  answer W E l x = Success /\ answer W E (l ++ x :: l2) y = Success.
Proof. exact (@c72_session). Qed.
Print Assumptions C72_session.

(** Requests two and seven of [session]. *)
Example hyp_app_registration : exists cr,
  Registers ex_world (snd (do_reg "1" "alice" "challenge-1" "cred-1" 2000)) (lit "1") (lit "alice") cr /\
  AppRegistration ex_world 900 cr (blit "challenge-1") (blit "cred-1") ex_key 0.
Proof. exact ex_app_registration. Qed.
Example hyp_app_login : exists cr,
  Authenticates ex_world (snd (do_auth "4" "alice" "challenge-4" "cred-1" 7 7000)) (lit "4") (lit "alice") cr /\
  AppLogin ex_world 900 cr (blit "challenge-4") (blit "cred-1") ex_key (blit "handle-a") 7.
Proof. exact ex_app_login. Qed.
Example hyp_app_history :
  Issued ex_world ex_env (firstn 1 session) (lit "alice") (blit "challenge-1") 1 1000 /\
  Issued ex_world ex_env (firstn 6 session) (lit "alice") (blit "challenge-4") 4 6000 /\
  UserHandle ex_world ex_env (firstn 6 session) (lit "alice") (blit "handle-a") /\
  (forall n' k', ~ RegisteredKey ex_world ex_env (firstn 1 session) n' (blit "cred-1") k') /\
  SentBelow ex_world (blit "cred-1") ex_key 7 (firstn 6 session) /\ converts ex_env.
Proof.
  split; [|split; [|split; [|split; [|split]]]].
  - exists [], (ask_reg "alice" "handle-a" "challenge-1" 1000). eexists.
    split; [split; [exists []; reflexivity|vm_compute; reflexivity]|].
    split; [left; reflexivity|split; reflexivity].
  - exists (firstn 5 session), (ask_auth "alice" "challenge-4" 6000). eexists.
    split; [split; [exists []; reflexivity|vm_compute; reflexivity]|].
    split; [right; reflexivity|split; reflexivity].
  - exists {| ur_id := 1; ur_username := lit "alice"; ur_handle := blit "handle-a" |}.
    split; [vm_compute; now left|]. split; reflexivity.
  - intros n' k' (l1 & y & i & cr & ((l2 & EL) & _) & (t & Q & _) & _).
    destruct l1 as [|z l1]; [injection EL as <- _; discriminate|destruct l1; discriminate].
  - intros y i u cr cdj adb sig h HY (t & Q & _). cbn [firstn session] in HY.
    repeat (destruct HY as [<-|HY]; [discriminate|]). destruct HY.
  - exact ex_converts.
Qed.
