(** * AgreeExamples: runs with an authenticator that meet the hypotheses of C78. *)
From Coq Require Import List NArith ZArith Bool String Lia.
From Verif Require Import Base BaseFacts PyVal B64 Utf8 Url CaseConv Cbor Types World Parsers Crypto
  Backends Spec FormatSpec Examples OptionSpec App AppSpec AppExamples AppHistory AppConc AppConcSpec AppConcInv
  AppConcExamples AppTheorems AppConcTheorems AgreeSpec.
Import ListNotations.
Local Open Scope list_scope.

Lemma toy_hash_32 : hash_32 ex_world.
Proof. intro b. cbn [w_sha256 ex_world]. unfold toy_hash. apply N_to_be_length. Qed.

(** What a login response carries. *)
Definition presented (W : World) (q : request) : option (bytes * bytes) :=
  match q with
  | AuthenticationResponse (Some _) (Some t) (Some _) =>
      match w_json_loads W t with
      | WOk (VDict m) =>
          match parse_public_key_credential W m with
          | Ok c => match cr_response c with AssertionResponse cdj adb _ _ => Some (adb, cdj) | _ => None end
          | Raise _ => None
          end
      | _ => None
      end
  | _ => None
  end.
Lemma presents_presented W q n id cdj adb sig : Presents W q n id cdj adb sig -> presented W q = Some (adb, cdj).
Proof. intros (i & cr & uh & (t & -> & m & J & P) & _ & R). cbn. now rewrite J, P, R. Qed.

(** The challenge in client data. *)
Definition named_in (W : World) (cdj : bytes) : option bytes :=
  match utf8_decode cdj with
  | Ok text =>
      match w_json_loads W text with
      | WOk (VDict m) =>
          match dict_find (VStr (lit "challenge")) m with
          | Some (VStr ch) => match url_base64_decode ch with Ok c => Some c | Raise _ => None end
          | _ => None
          end
      | _ => None
      end
  | Raise _ => None
  end.
Lemma names_named W cdj c : Names W cdj c -> named_in W cdj = Some c.
Proof. intros (text & m & ch & H1 & H2 & H3 & H4). unfold named_in. now rewrite H1, H2, H3, H4. Qed.

Section Decide.
Context {A : Type}.
Variable W : World.
Variable arrives : A -> option (chance * request).
Variable sent : list A -> bytes -> Prop.
Variable sent_b : list A -> bytes -> bool.

Definition pair_eqb (p q : bytes * bytes) : bool := bytes_eqb (fst p) (fst q) && bytes_eqb (snd p) (snd q).
Definition carried_by (a : A) : option (bytes * bytes) :=
  match arrives a with Some x => presented W (snd x) | None => None end.
(** All that arrives has been signed. *)
Fixpoint all_signed (before : list (bytes * bytes)) (tr : list (moment A)) : bool :=
  match tr with
  | [] => true
  | Sign adb cdj :: t => all_signed ((adb, cdj) :: before) t
  | Server a :: t => match carried_by a with Some p => existsb (pair_eqb p) before | None => true end && all_signed before t
  end.
Lemma all_signed_split before tr1 a tr2 p : all_signed before (tr1 ++ Server a :: tr2) = true -> carried_by a = Some p ->
  In p before \/ In (Sign (fst p) (snd p)) tr1.
Proof.
  revert before. induction tr1 as [|[b|adb cdj] t IH]; intros before H C; cbn [all_signed app] in H.
  - rewrite C in H. apply andb_prop in H as [H _]. apply existsb_exists in H as ([q1 q2] & I & H).
    apply andb_prop in H as [H1 H2]. cbn in H1, H2. apply bytes_eqb_spec in H1, H2. left. destruct p; cbn in *; now subst.
  - apply andb_prop in H as [_ H]. destruct (IH _ H C); auto. right. now right.
  - destruct (IH _ H C) as [[<-|]|]; auto; right; [now left|now right].
Qed.
Lemma unforged_by k tr : all_signed [] tr = true -> Unforged arrives W k tr.
Proof.
  intros H tr1 a tr2 x n id cdj adb sig -> AR P _. apply presents_presented in P.
  destruct (all_signed_split [] tr1 a tr2 (adb, cdj) H) as [[]|I]; [unfold carried_by; now rewrite AR|eauto].
Qed.

(** No two client data have the same hash. *)
Fixpoint all_carried (tr : list (moment A)) : list bytes :=
  match tr with
  | [] => []
  | Sign _ _ :: t => all_carried t
  | Server a :: t => match carried_by a with Some p => snd p :: all_carried t | None => all_carried t end
  end.
Lemma all_carried_in tr a p : In (Server a) tr -> carried_by a = Some p -> In (snd p) (all_carried tr).
Proof.
  induction tr as [|[b|adb cdj] t IH]; cbn; [intros []|..].
  - intros [Q|I] C; [injection Q as ->; rewrite C; now left|]. destruct (carried_by b); [right|]; auto.
  - intros [Q|I] C; [discriminate|auto].
Qed.
Lemma signed_in (tr : list (moment A)) adb cdj : In (Sign adb cdj) tr -> In (adb, cdj) (signatures tr).
Proof.
  induction tr as [|[b|adb' cdj'] t IH]; cbn; [tauto|..].
  - intros [|]; [discriminate|auto].
  - intros [Q|]; auto; injection Q as <- <-; auto.
Qed.
Definition no_collision (tr : list (moment A)) : bool :=
  forallb (fun s => forallb (fun c => negb (bytes_eqb (w_sha256 W (snd s)) (w_sha256 W c)) || bytes_eqb (snd s) c)
                            (all_carried tr)) (signatures tr).
Lemma no_collision_by tr : no_collision tr = true -> NoCollision arrives W tr.
Proof.
  intros H a x n id cdj adb sig adb' cdj' I AR P S Q. apply presents_presented in P.
  apply signed_in in S. unfold no_collision in H. rewrite forallb_forall in H. specialize (H _ S).
  rewrite forallb_forall in H. specialize (H cdj). cbn [snd] in H. rewrite Q in H.
  assert (B : bytes_eqb (w_sha256 W cdj) (w_sha256 W cdj) = true) by now apply bytes_eqb_spec.
  rewrite B in H. cbn in H. apply bytes_eqb_spec, H.
  apply (all_carried_in tr a (adb, cdj) I). unfold carried_by. now rewrite AR.
Qed.

(** Every challenge that is signed has been sent. *)
Fixpoint all_sent (before : list A) (tr : list (moment A)) : bool :=
  match tr with
  | [] => true
  | Sign adb cdj :: t => match named_in W cdj with Some c => sent_b before c | None => true end && all_sent before t
  | Server a :: t => all_sent (before ++ [a]) t
  end.
Hypothesis SENT : forall l c, sent_b l c = true -> sent l c.
Lemma unpredicted_from before tr1 adb cdj tr2 c : all_sent before (tr1 ++ Sign adb cdj :: tr2) = true -> Names W cdj c ->
  sent (before ++ at_server tr1) c.
Proof.
  revert before. induction tr1 as [|[b|a d] t IH]; intros before H N; cbn [all_sent app] in H.
  - rewrite (names_named _ _ _ N) in H. apply andb_prop in H as [H _]. rewrite app_nil_r. auto.
  - specialize (IH _ H N). now rewrite <- app_assoc in IH.
  - apply andb_prop in H as [_ H]. now apply IH.
Qed.
Lemma unpredicted_by drawn tr : all_sent [] tr = true -> Unpredicted drawn sent W tr.
Proof. intros H tr1 adb cdj tr2 c -> N _. exact (unpredicted_from [] tr1 adb cdj tr2 c H N). Qed.
End Decide.

(** ** One after the other *)
Definition asks_b (q : request) : bool :=
  match q with RegistrationRequest (Some _) | AuthenticationRequest (Some _) => true | _ => false end.
Fixpoint sent_from (W : World) (E : appenv) (d : database) (l : list (chance * request)) (c : bytes) : bool :=
  match l with
  | [] => false
  | x :: t =>
      let '(r, d') := serve W E d x in
      match r with Options _ _ => asks_b (snd x) && bytes_eqb (ch_challenge (fst x)) c | _ => false end
      || sent_from W E d' t c
  end.
Lemma sent_from_ok W E l0 l c : sent_from W E (after W E l0) l c = true -> sent_one W E (l0 ++ l) c.
Proof.
  revert l0. induction l as [|x t IH]; intros l0 H; [discriminate|]. cbn [sent_from] in H.
  destruct (serve W E (after W E l0) x) as [r d] eqn:S. apply orb_prop in H as [H|H].
  - destruct r as [id v| |]; try discriminate. apply andb_prop in H as [H1 H2]. apply bytes_eqb_spec in H2.
    assert (N : exists n, Asks (snd x) n).
    { destruct (snd x) as [[n|]|? ? ?|[n|]|? ? ?]; try discriminate; exists n; [left|right]; reflexivity. }
    destruct N as (n & N). exists n, id, (ch_clock (fst x)), l0, x, v.
    split; [split; [now exists t|unfold answer; now rewrite S]|auto].
  - specialize (IH (l0 ++ [x])). rewrite after_snoc, S in IH. rewrite <- app_assoc in IH. exact (IH H).
Qed.

(** The session of AppExamples.v with the signatures in it. *)
Definition signs (c : string) (ctr : N) {A} : moment A :=
  Sign (app_ad Byte.x05 ctr []) (app_cdj "webauthn.get" (blit c)).
Definition ex_trace : list (moment (chance * request)) :=
  map Server (firstn 6 session) ++ [signs "challenge-4" 7] ++ map Server (firstn 2 (skipn 6 session)) ++
  [signs "challenge-5" 1] ++ map Server (firstn 3 (skipn 8 session)) ++ [signs "challenge-6" 8] ++
  map Server (skipn 11 session).
Example ex_trace_at : at_server ex_trace = session.
Proof. reflexivity. Qed.

Lemma ex_trace_ok k : Unforged one_by_one ex_world k ex_trace /\ NoCollision one_by_one ex_world ex_trace /\
  Unpredicted (sent_one ex_world ex_env) (sent_one ex_world ex_env) ex_world ex_trace.
Proof.
  split; [apply unforged_by; vm_compute; reflexivity|]. split; [apply no_collision_by; vm_compute; reflexivity|].
  apply (unpredicted_by _ _ (sent_from ex_world ex_env empty_db)); [|vm_compute; reflexivity].
  intros l c H. exact (sent_from_ok ex_world ex_env [] l c H).
Qed.

(** ** In flight together *)
Definition sent_now (ts : list (chance * request * thread)) (c : bytes) : bool :=
  existsb (fun t => match snd t with
                    | Answered (Options _ _) => asks_b (snd (fst t)) && bytes_eqb (ch_challenge (fst (fst t))) c
                    | _ => false end) ts.
Lemma sent_now_ok W E l c : sent_now (sv_threads (Served W E l)) c = true -> sent_shared W E l c.
Proof.
  intro H. apply existsb_exists in H as ([x t] & I & H). cbn [fst snd] in H.
  destruct t as [[id v| |]|]; try discriminate. apply andb_prop in H as [H1 H2]. apply bytes_eqb_spec in H2.
  apply In_nth_error in I as (j & I).
  assert (N : exists n, Asks (snd x) n).
  { destruct (snd x) as [[n|]|? ? ?|[n|]|? ? ?]; try discriminate; exists n; [left|right]; reflexivity. }
  destruct N as (n & N). exists n, id, (ch_clock (fst x)), j, x, v. auto.
Qed.

(** A trace of the orderly run, and one of the run in which a login is sent twice. *)
Definition ex_shared : list (moment sv_event) :=
  map Server prologue ++ [signs "challenge-2" 7] ++ map Server (firstn 8 (skipn (List.length prologue) orderly)) ++
  [signs "challenge-2" 8] ++ map Server (skipn (8 + List.length prologue) orderly).
Definition ex_replay : list (moment sv_event) :=
  map Server prologue ++ [signs "challenge-2" 7] ++ map Server (skipn (List.length prologue) replay).
Example ex_shared_at : at_server ex_shared = orderly /\ at_server ex_replay = replay.
Proof. split; reflexivity. Qed.

Lemma shared_ok k tr : tr = ex_shared \/ tr = ex_replay ->
  Unforged arriving ex_world k tr /\ NoCollision arriving ex_world tr /\
  Unpredicted (drawn_shared ex_world ex_env) (sent_shared ex_world ex_env) ex_world tr.
Proof.
  intro H. split; [|split].
  - apply unforged_by. destruct H as [-> | ->]; vm_compute; reflexivity.
  - apply no_collision_by. destruct H as [-> | ->]; vm_compute; reflexivity.
  - apply (unpredicted_by _ _ (fun l c => sent_now (sv_threads (Served ex_world ex_env l)) c)).
    + intros l c. apply sent_now_ok.
    + destruct H as [-> | ->]; vm_compute; reflexivity.
Qed.

(** Logins of the runs. *)
Lemma present_4 : exists sig, Presents ex_world (snd (do_auth "4" "alice" "challenge-4" "cred-1" 7 7000)) (lit "alice")
  (blit "cred-1") (app_cdj "webauthn.get" (blit "challenge-4")) (app_ad Byte.x05 7 []) sig.
Proof.
  do 4 eexists. split; [eexists; split; [reflexivity|]; eexists; split; [vm_compute; reflexivity|]; vm_compute; reflexivity|].
  split; vm_compute; reflexivity.
Qed.
Lemma present_2 : exists sig, Presents ex_world (snd login7) (lit "alice")
  (blit "cred-1") (app_cdj "webauthn.get" (blit "challenge-2")) (app_ad Byte.x05 7 []) sig.
Proof.
  do 4 eexists. split; [eexists; split; [reflexivity|]; eexists; split; [vm_compute; reflexivity|]; vm_compute; reflexivity|].
  split; vm_compute; reflexivity.
Qed.

Lemma c79_refuted :
  exists W E depth tr n id k j j', Undisturbed (at_server tr) /\
    converts E /\ decodes_cbor W depth /\ 2 <= depth /\ hash_32 W /\
    Unforged arriving W k tr /\ NoCollision arriving W tr /\ Unpredicted (drawn_shared W E) (sent_shared W E) W tr /\
    AcceptedKey W (Served W E (at_server tr)) n id k /\ List.length (signatures tr) = 1 /\ j <> j' /\
    (exists x cdj adb sig, Presents W (snd x) n id cdj adb sig /\
       Replied (Served W E (at_server tr)) j x Success /\ Replied (Served W E (at_server tr)) j' x Success).
Proof.
  destruct present_2 as (sig & P). pose proof P as (i & cr & uh & AU & ID & _).
  assert (S : Replied (Served ex_world ex_env (at_server ex_replay)) 3 login7 Success) by (vm_compute; reflexivity).
  assert (S' : Replied (Served ex_world ex_env (at_server ex_replay)) 4 login7 Success) by (vm_compute; reflexivity).
  destruct (shared_login ex_world ex_env 900 _ _ _ _ _ _ ex_converts ex_decodes ltac:(repeat constructor) S AU) as
    (cid & m & c & t & hd & k & cdj & adb & sig' & uh' & ad & _ & _ & _ & _ & AK & _).
  destruct (shared_ok k ex_replay (or_intror eq_refl)) as (O1 & O2 & O3).
  exists ex_world, ex_env, 900, ex_replay, (lit "alice"), (blit "cred-1"), k, 3, 4.
  split; [apply undisturbed_by; vm_compute; reflexivity|].
  split; [exact ex_converts|]. split; [exact ex_decodes|]. split; [repeat constructor|]. split; [exact toy_hash_32|].
  split; [exact O1|]. split; [exact O2|]. split; [exact O3|]. split; [now rewrite <- ID|]. split; [reflexivity|].
  split; [discriminate|]. exists login7. do 3 eexists. split; [exact P|]. split; [exact S|exact S'].
Qed.
