(** * PropsPhish: phishing, replay and possession of the key, for any caller of the library. *)
From Coq Require Import List NArith ZArith Bool String.
From Verif Require Import Base PyVal Types World Crypto Backends Spec History Json HonestSpec AgreeSpec AssertFacts AttestFacts
  HistoryFacts HonestFacts PhishSpec PhishFacts Examples.
Import ListNotations.
Local Open Scope list_scope.

(** C89: if only the authenticator can sign for the stored key, whoever presents the response, a
    login succeeds only if a page of an allowed origin asked for it. *)
Theorem C89_asked_by_allowed_page :
  forall (W : World) (depth : nat) (E : jsonenv) {S} (R : registrar S) (s : S) (A : assertion_args)
         (cdt : cred_data) (signed : list signing),
  Conforming W depth E -> lookup R s A = Ok (Some cdt) ->
  (forall g, In g signed -> Truthful W g) -> OnlySigned W (cdt_key cdt) signed [CAssert A] ->
  Separate W (Hashed signed A cdt) ->
  login_succeeds W R s A -> exists g, In g signed /\ AskedFor W A cdt g.
Proof. intros W depth E S R. exact (c89 W depth E R). Qed.
Print Assumptions C89_asked_by_allowed_page.

(** C89: what the user signed at pages of other origins does not log anybody in, even with the
    right challenge and RP id. *)
Theorem C89_phished_signature_fails :
  forall (W : World) (depth : nat) (E : jsonenv) {S} (R : registrar S) (s : S) (A : assertion_args)
         (cdt : cred_data) (signed : list signing),
  Conforming W depth E -> lookup R s A = Ok (Some cdt) ->
  (forall g, In g signed -> Truthful W g) -> OnlySigned W (cdt_key cdt) signed [CAssert A] ->
  Separate W (Hashed signed A cdt) ->
  (forall o, In o (allowed_strings (aa_origin A)) -> WebOrigin o) ->
  (forall g, In g signed -> sg_challenge g = aa_challenge A ->
     ~ In (sg_origin g) (allowed_strings (aa_origin A))) ->
  ~ login_succeeds W R s A.
Proof. intros W depth E S R. exact (c89_phished W depth E R). Qed.
Print Assumptions C89_phished_signature_fails.

(** One signature, asked for by https://example.com, logs in; one asked for by a page of a
    subdomain, for the same challenge and RP id, does not. *)
Example hyp_page_signing :
  Truthful ex_world (page_signing "example.com" 4) /\
  OnlySigned ex_world (cdt_key (ex_stored (Some 3%Z))) [page_signing "example.com" 4] [CAssert (page_auth "example.com" 4)] /\
  Separate ex_world (Hashed [page_signing "example.com" 4] (page_auth "example.com" 4) (ex_stored (Some 3%Z))) /\
  lookup mem_registrar (ex_store (Some 3%Z)) (page_auth "example.com" 4) = Ok (Some (ex_stored (Some 3%Z))) /\
  login_succeeds ex_world mem_registrar (ex_store (Some 3%Z)) (page_auth "example.com" 4).
Proof.
  split; [apply page_truthful; cbn; auto|]. split; [apply page_signed|]. split; [apply page_separate; cbn; auto|].
  split; [reflexivity|vm_compute; reflexivity].
Qed.
Example hyp_phished :
  Truthful ex_world (page_signing "evil.example.com" 4) /\
  OnlySigned ex_world (cdt_key (ex_stored (Some 3%Z))) [page_signing "evil.example.com" 4]
    [CAssert (page_auth "evil.example.com" 4)] /\
  Separate ex_world (Hashed [page_signing "evil.example.com" 4] (page_auth "evil.example.com" 4) (ex_stored (Some 3%Z))) /\
  (forall o, In o (allowed_strings (aa_origin (page_auth "evil.example.com" 4))) -> WebOrigin o) /\
  sg_challenge (page_signing "evil.example.com" 4) = aa_challenge (page_auth "evil.example.com" 4) /\
  out_result (run mem_registrar (ex_store (Some 3%Z))
    (handle_credential_assertion ex_world (page_auth "evil.example.com" 4))) = Raise (Lib OriginError).
Proof.
  split; [apply page_truthful; cbn; auto|]. split; [apply page_signed|]. split; [apply page_separate; cbn; auto|].
  split; [intros o [<-|[<-|[]]]; [exact ex_local_origin|exact ex_web_origin]|].
  split; [reflexivity|vm_compute; reflexivity].
Qed.

(** C89: each signature is good for at most one login: in any history, a credential logs in at
    most as often as the authenticator signed. *)
Theorem C89_one_login_each :
  forall (W : World) {S} (R : registrar S) (view : S -> bytes -> option cred_data) (s : S)
         (cs : list call) (id : bytes) (cdt : cred_data) (signed : list signing),
  CounterStore R view -> KeepsKeys R view -> hash_32 W ->
  (forall A, In (CAssert A) cs -> aa_ignore_clone A = false) ->
  view s id = Some cdt -> OnlySigned W (cdt_key cdt) signed cs ->
  List.length (filter (fun p => bytes_eqb (fst p) id) (accepted (fst (run_history W R s cs))))
  <= List.length signed.
Proof. intros W S R view s cs id cdt signed CS KK. exact (c89_history W R view CS KK s cs id cdt signed). Qed.
Print Assumptions C89_one_login_each.

(** C89: also when the calls interleave, with a store that compares and sets, whatever the
    callers ask about clones. *)
Theorem C89_one_login_each_concurrently :
  forall (W : World) {S} (R : registrar S) (view : S -> bytes -> option cred_data) (s : S)
         (cs : list call) (id : bytes) (cdt : cred_data) (signed : list signing)
         (sched : list nat) (js : list nat),
  CounterStore R view -> KeepsKeys R view -> CompareAndSet R view -> hash_32 W ->
  view s id = Some cdt -> OnlySigned W (cdt_key cdt) signed cs ->
  NoDup js ->
  (forall j, In j js -> exists A, nth_error cs j = Some (CAssert A) /\
     cr_raw_id (aa_credential A) = id /\
     nth_error (snd (run_sched R s (map (handler W) cs) sched)) j = Some (Done (Ok tt))) ->
  List.length js <= List.length signed.
Proof. intros W S R view s cs id cdt signed sched js CS KK. exact (c89_concurrent W R view CS KK s cs id cdt signed sched js). Qed.
Print Assumptions C89_one_login_each_concurrently.

(** Two signatures and four calls with them: two logins, one after the other or at once. *)
Example hyp_one_login_each :
  let cs := [CAssert (page_auth "example.com" 4); CAssert (page_auth "example.com" 4);
             CAssert (page_auth "example.com" 5); CAssert (page_auth "example.com" 4)] in
  let signed := [page_signing "example.com" 4; page_signing "example.com" 5] in
  OnlySigned ex_world ex_key signed cs /\
  KeepsKeys mem_registrar (fun s id => mem_find id s) /\ KeepsKeys cas_registrar (fun s id => mem_find id s) /\
  accepted (fst (run_history ex_world mem_registrar (ex_store (Some 3%Z)) cs)) = [(ex_raw_id, 4%N); (ex_raw_id, 5%N)] /\
  map (fun p => match p with Done (Ok tt) => true | _ => false end)
      (snd (run_sched cas_registrar (ex_store (Some 3%Z)) (map (handler ex_world) cs) [0; 1; 2; 3; 1; 2; 0; 3]))
  = [false; true; true; false].
Proof.
  cbv zeta. split; [|split; [exact mem_keeps|split; [exact cas_keeps|split; vm_compute; reflexivity]]].
  intros c cdj adb sig I (A & h & -> & ER) _.
  destruct I as [Q|[Q|[Q|[Q|[]]]]]; injection Q as <-; cbn [page_auth aa_credential cr_response] in ER; injection ER as <- <- _ _.
  1,2,4: exists (page_signing "example.com" 4); split; [now left|reflexivity].
  exists (page_signing "example.com" 5); split; [right; now left|reflexivity].
Qed.

(** C90, refuted: a registration may succeed although nobody can sign with the registered key,
    and it cannot even be loaded. *)
Theorem C90_refuted :
  exists (W : World) (R : registrar mem_state) s A,
    registration_succeeds W R s A /\ (forall k o, ~ KeyObject W k o) /\
    (forall k sig data, ~ SignatureSpec W k sig data).
Proof. exact c90_refuted. Qed.
Print Assumptions C90_refuted.

(** C90: and this is no accident: how keys and certificates are loaded and signatures are
    checked makes no difference to whether a registration succeeds. *)
Theorem C90_partial :
  forall (W W' : World) {S} (R : registrar S) (s : S) (A : attestation_args), SameReaders W W' ->
  (registration_succeeds W R s A <-> registration_succeeds W' R s A).
Proof. intros W W' S. exact (@c90_readers S W W'). Qed.
Print Assumptions C90_partial.

Example hyp_readers : SameReaders ex_world deaf_world.
Proof. now split. Qed.
