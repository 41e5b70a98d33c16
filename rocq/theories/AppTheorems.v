(** * AppTheorems: lemmas behind PropsApp. *)
From Coq Require Import List NArith ZArith Bool String Lia.
From Verif Require Import Base PyVal B64 Utf8 Url CaseConv Cbor CborFacts Types World Parsers Crypto
  Backends Spec History Jsonify Builders OptionSpec OptionProps BaseFacts AuthFacts BackendFacts
  HistoryFacts AssertFacts KeyFacts Examples App AppSpec AppFacts AppHistory AppAccept AppExamples.
Import ListNotations.
Local Open Scope list_scope.

Lemma ex_converts : converts ex_env.
Proof. split; [constructor; reflexivity|]. apply PeanoNat.Nat.leb_le. reflexivity. Qed.

Lemma c54_stable (W : World) (E : appenv) (l1 l2 : list (chance * request)) (c : cred_row) :
  In c (db_creds (after W E l1)) ->
  exists c', In c' (db_creds (after W E (l1 ++ l2))) /\
    kr_id c' = kr_id c /\ kr_key c' = kr_key c /\ kr_user c' = kr_user c /\
    count_le (kr_count c) (kr_count c') /\
    forall c'', In c'' (db_creds (after W E (l1 ++ l2))) -> kr_id c'' = kr_id c -> c'' = c'.
Proof.
  intro H. destruct (after_keeps W E l1 l2 c H) as (c' & H1 & H2 & H3 & H4 & H5).
  exists c'. repeat (split; [assumption|]). intros c'' I1 I2.
  eapply (NoDup_map_eq kr_id); [apply after_consistent|exact I1|exact H1|congruence].
Qed.

Lemma c54_users (W : World) (E : appenv) (l1 l2 : list (chance * request)) :
  (forall u, In u (db_users (after W E l1)) -> In u (db_users (after W E (l1 ++ l2)))) /\
  (forall h, In h (db_chals (after W E l1)) -> In h (db_chals (after W E (l1 ++ l2)))) /\
  Consistent (after W E (l1 ++ l2)).
Proof.
  destruct (after_users W E l1 l2) as (us & ->). destruct (after_chals W E l1 l2) as (hs & ->).
  split; [intros; apply in_or_app; now left|]. split; [intros; apply in_or_app; now left|].
  apply after_consistent.
Qed.

Lemma c54_provenance (W : World) (E : appenv) (l : list (chance * request)) (c : cred_row) (u : user_row) :
  In c (db_creds (after W E l)) -> In u (db_users (after W E l)) -> kr_user c = ur_id u ->
  exists k, RegisteredKey W E l (ur_username u) (kr_id c) k /\ cose_key (Some k) = Ok (kr_key c).
Proof.
  intros. now apply row_registered.
Qed.

Lemma c54_counter (W : World) (E : appenv) (l : list (chance * request)) (c : cred_row) :
  In c (db_creds (after W E l)) ->
  kr_count c = option_map Z.of_N (last_counter W E (kr_id c) empty_db l).
Proof.
  intro H. now apply counter_stored.
Qed.

Lemma c55_fresh (W : World) (E : appenv) (l : list (chance * request)) (x : chance * request)
  (i n : pystr) (cr : credential) :
  converts E -> Registers W (snd x) i n cr \/ Authenticates W (snd x) i n cr ->
  answer W E l x = Success ->
  exists id n0 c t,
    ap_int E i = Some id /\ Issued W E l n0 c id t /\ (ch_clock (fst x) - t <= 60000)%Z /\
    Answers W cr c.
Proof.
  intros CV [R|A] H.
  - apply (registration_exact W E l x i n cr CV R) in H as
      (id & n0 & c & t & hd & cdj & aob & adb & ad & acd & k & b & I1 & I2 & I3 & I4 & I5 & I6 & _).
    exists id, n0, c, t. repeat (split; [assumption|]).
    destruct I6 as (text & d & ch & org & J1 & J2 & J3 & J4 & J5 & _).
    exists text, d, ch. unfold client_data_of. rewrite I5. auto.
  - destruct (login_row W E l x i n cr A H) as (h & u & c & k & ad & rp & u' & F & _ & _ & _ & _ & S & _).
    apply find_ceremony_ok in F as ((id & F1 & F2) & F3 & F4).
    apply chal_by_id_in in F2 as [F2 F2'].
    destruct (row_issued W E l h CV F2) as (n0 & IS & _). rewrite F2' in IS.
    exists id, n0, (hr_request h), (hr_timestamp h). repeat (split; [assumption|]).
    destruct S as (cdj & adb & sig & uh & S1 & _ & _ & _ & (text & d & ch & org & J1 & J2 & J3 & J4 & J5 & _) & _).
    exists text, d, ch. unfold client_data_of. cbn in S1. rewrite S1. auto.
Qed.

Lemma c55_expired (W : World) (E : appenv) (l : list (chance * request)) (x : chance * request)
  (i n n0 : pystr) (c : bytes) (id : N) (t : Z) (cr : credential) :
  Registers W (snd x) i n cr \/ Authenticates W (snd x) i n cr ->
  ap_int E i = Some id -> Issued W E l n0 c id t -> (60000 < ch_clock (fst x) - t)%Z ->
  (exists s text, answer W E l x = Reply s text /\ (s = 400 \/ s = 408)%N) /\
  after W E (l ++ [x]) = after W E l.
Proof.
  intros RA HI IS LT. apply issued_row in IS as (h & H1 & H2 & H3).
  rewrite after_snoc. unfold answer, serve.
  assert (FC : exists s text, find_ceremony E (ch_clock (fst x)) i n (after W E l) = inl (Reply s text) /\
                              (s = 400 \/ s = 408)%N).
  { unfold find_ceremony. rewrite HI, H1. destruct (user_by_name n (after W E l)); [|eauto 10].
    rewrite (proj2 (Z.ltb_lt _ _)) by (unfold APP_TIMEOUT; lia). eauto. }
  destruct FC as (s & text & FC & SC).
  destruct RA as [(tx & -> & P)|(tx & -> & P)];
    unfold registration_response, authentication_response;
    rewrite (proj2 (parse_form_ok W (Some i) (Some tx) (Some n) i cr n)) by (exists tx; auto);
    destruct (cr_response cr); try rewrite FC; cbn [fst snd]; eauto 10.
Qed.

Lemma state_eta {S} (o : outcome S) :
  o = {| out_state := out_state o; out_trace := out_trace o; out_result := out_result o |}.
Proof. destruct o; reflexivity. Qed.
Lemma chals_kept W E l x i n cr : Registers W (snd x) i n cr \/ Authenticates W (snd x) i n cr ->
  db_chals (after W E (l ++ [x])) = db_chals (after W E l).
Proof.
  intro RA. rewrite after_snoc. unfold serve.
  destruct RA as [(tx & -> & P)|(tx & -> & P)];
    unfold registration_response, authentication_response;
    rewrite (proj2 (parse_form_ok W (Some i) (Some tx) (Some n) i cr n)) by (exists tx; auto);
    destruct (cr_response cr); try reflexivity;
    destruct (find_ceremony E (ch_clock (fst x)) i n (after W E l)) as [r|[h u]]; try reflexivity; cbn [snd].
  - destruct (registration_run W _ _ _ _ _ (state_eta (run (app_registrar W) (after W E l)
      (handle_credential_attestation W (app_attestation cr n u h))))) as [[_ ->]|(_ & att & _ & A)]; [reflexivity|].
    apply app_attest_ok in A as (ad & acd & row & kb & _ & _ & _ & _ & I).
    apply insert_cred_ok in I as (_ & ->). reflexivity.
  - destruct (authentication_run W _ _ _ _ _ (state_eta (run (app_registrar W) (after W E l)
      (handle_credential_assertion W (app_assertion cr n u h))))) as [[_ ->]|(_ & cdt & ad & u1 & rp & _ & _ & ->)];
      reflexivity.
Qed.

Lemma c56_kept (W : World) (E : appenv) (l l' : list (chance * request)) (x : chance * request)
  (i n n0 : pystr) (cr : credential) (c : bytes) (id : N) (t : Z) :
  (Registers W (snd x) i n cr \/ Authenticates W (snd x) i n cr ->
   db_chals (after W E (l ++ [x])) = db_chals (after W E l)) /\
  (Issued W E l n0 c id t -> Issued W E (l ++ l') n0 c id t).
Proof.
  split; [apply chals_kept|].
  intros (l1 & y & v & ((l2 & ->) & HA) & H). exists l1, y, v. split; [|exact H].
  split; [|exact HA]. exists (l2 ++ l'). now rewrite <- app_assoc.
Qed.

(** ** Challenges and their users *)
Definition alike (d d' : database) : Prop := exists f g, reassign f d = reassign g d'.
Definition anon (d : database) : database := reassign (fun _ => 0%N) d.

Lemma anon_parts d : db_users (anon d) = db_users d /\ db_creds (anon d) = db_creds d.
Proof. split; reflexivity. Qed.

Section Anon.
Variable W : World.
Variable E : appenv.

Lemma existsb_map {A B} (f : A -> B) p l : existsb p (map f l) = existsb (fun x => p (f x)) l.
Proof. induction l as [|a l IH]; cbn; [reflexivity|]. now rewrite IH. Qed.

Lemma insert_chal_anon f b t u v d :
  match insert_chal b t u d, insert_chal b t v (reassign f d) with
  | Ok (h, d1), Ok (h', d2) => hr_id h = hr_id h' /\ anon d1 = anon d2
  | Raise e, Raise e' => e = e'
  | _, _ => False
  end.
Proof.
  unfold insert_chal. cbn [reassign db_chals]. rewrite existsb_map. cbn.
  destruct (existsb _ (db_chals d)); [reflexivity|]. cbn.
  assert (M : map hr_id (map (fun h => {| hr_id := hr_id h; hr_request := hr_request h;
      hr_timestamp := hr_timestamp h; hr_user := f (hr_user h) |}) (db_chals d)) = map hr_id (db_chals d)).
  { rewrite map_map. reflexivity. }
  rewrite M. split; [reflexivity|]. unfold anon, reassign. cbn. f_equal. rewrite !map_app, map_map. reflexivity.
Qed.
Lemma insert_user_anon f n h d :
  insert_user n h (reassign f d) =
  match insert_user n h d with Ok (u, d1) => Ok (u, reassign f d1) | Raise e => Raise e end.
Proof.
  unfold insert_user. cbn. destruct (existsb _ (db_users d)); reflexivity.
Qed.
Lemma anon_reassign f d : anon (reassign f d) = anon d.
Proof. unfold anon, reassign. cbn. f_equal. rewrite map_map. reflexivity. Qed.

Lemma chal_by_id_anon f i d :
  chal_by_id i (reassign f d) =
  option_map (fun h => {| hr_id := hr_id h; hr_request := hr_request h;
                          hr_timestamp := hr_timestamp h; hr_user := f (hr_user h) |}) (chal_by_id i d).
Proof.
  unfold chal_by_id. cbn. induction (db_chals d) as [|h l IH]; cbn; [reflexivity|].
  destruct (N.eqb (hr_id h) i); [reflexivity|exact IH].
Qed.

Lemma run_anon f p : forall d,
  let o := run (app_registrar W) d p in let o' := run (app_registrar W) (reassign f d) p in
  out_result o' = out_result o /\ out_state o' = reassign f (out_state o).
Proof.
  induction p as [r|cid k IH|c ad u rp k IH|c att ty u rp path k IH]; intro d.
  - split; reflexivity.
  - cbn [run r_get app_registrar].
    assert (G : app_get W (reassign f d) cid = app_get W d cid) by reflexivity.
    rewrite G. destruct (IH (app_get W d cid) d) as [I1 I2].
    destruct (run _ d _), (run _ (reassign f d) _). split; assumption.
  - cbn [run r_assert app_registrar].
    assert (G : app_assert (reassign f d) c ad = let '(d', a) := app_assert d c ad in (reassign f d', a)).
    { unfold app_assert. change (cred_by_id (cr_raw_id c) (reassign f d)) with (cred_by_id (cr_raw_id c) d).
      destruct (cred_by_id (cr_raw_id c) d); reflexivity. }
    rewrite G. destruct (app_assert d c ad) as [d' a]. destruct (IH a d') as [I1 I2].
    destruct (run _ d' _), (run _ (reassign f d') _). split; assumption.
  - cbn [run r_attest app_registrar].
    assert (G : app_attest (reassign f d) c att u = let '(d', a) := app_attest d c att u in (reassign f d', a)).
    { unfold app_attest. destruct (ao_auth_data att) as [ad|]; [|reflexivity].
      destruct (ad_attested ad) as [acd|]; [|reflexivity].
      change (user_by_handle (us_id u) (reassign f d)) with (user_by_handle (us_id u) d).
      destruct (user_by_handle (us_id u) d) as [row|]; [|reflexivity].
      destruct (cose_key (at_key acd)); [|reflexivity].
      unfold insert_cred. cbn. destruct (existsb _ (db_creds d)); reflexivity. }
    rewrite G. destruct (app_attest d c att u) as [d' a]. destruct (IH a d') as [I1 I2].
    destruct (run _ d' _), (run _ (reassign f d') _). split; assumption.
Qed.

Lemma serve_reassign f d x :
  fst (serve W E (reassign f d) x) = fst (serve W E d x) /\
  anon (snd (serve W E (reassign f d) x)) = anon (snd (serve W E d x)).
Proof.
  destruct x as [c q]. unfold serve. cbn [fst snd]. destruct q as [un|i k n|un|i k n].
  - unfold registration_request. destruct un as [n|]; [|split; [reflexivity|apply anon_reassign]].
    change (user_by_name n (reassign f d)) with (user_by_name n d).
    assert (Q : forall u d0, fst (match insert_chal (ch_challenge c) (ch_clock c) (ur_id u) (reassign f d0) with
        | Raise e => (ServerError e, reassign f d0)
        | Ok (h, d2) => (send_options E h (bind (creation_build APP_CCO_BUILDER (app_user n (ur_handle u))
                 (ch_challenge c)) (fun o => Ok (obj_of_creation o))), d2) end) =
       fst (match insert_chal (ch_challenge c) (ch_clock c) (ur_id u) d0 with
        | Raise e => (ServerError e, d0)
        | Ok (h, d2) => (send_options E h (bind (creation_build APP_CCO_BUILDER (app_user n (ur_handle u))
                 (ch_challenge c)) (fun o => Ok (obj_of_creation o))), d2) end) /\
       anon (snd (match insert_chal (ch_challenge c) (ch_clock c) (ur_id u) (reassign f d0) with
        | Raise e => (ServerError e, reassign f d0)
        | Ok (h, d2) => (send_options E h (bind (creation_build APP_CCO_BUILDER (app_user n (ur_handle u))
                 (ch_challenge c)) (fun o => Ok (obj_of_creation o))), d2) end)) =
       anon (snd (match insert_chal (ch_challenge c) (ch_clock c) (ur_id u) d0 with
        | Raise e => (ServerError e, d0)
        | Ok (h, d2) => (send_options E h (bind (creation_build APP_CCO_BUILDER (app_user n (ur_handle u))
                 (ch_challenge c)) (fun o => Ok (obj_of_creation o))), d2) end))).
    { intros u d0. pose proof (insert_chal_anon f (ch_challenge c) (ch_clock c) (ur_id u) (ur_id u) d0) as H.
      destruct (insert_chal _ _ _ d0) as [[h d1]|e], (insert_chal _ _ _ (reassign f d0)) as [[h' d2]|e'];
        try (now destruct H).
      - destruct H as [H1 H2]. cbn [fst snd]. split; [|now symmetry].
        unfold send_options. rewrite H1. reflexivity.
      - subst e'. cbn [fst snd]. split; [reflexivity|apply anon_reassign]. }
    destruct (user_by_name n d) as [u|]; [apply Q|].
    rewrite insert_user_anon. destruct (insert_user n (ch_handle c) d) as [[u d1]|e]; [apply Q|].
    cbn [fst snd]. split; [reflexivity|apply anon_reassign].
  - unfold registration_response. destruct (parse_form W i k n) as [[[i' cr] n']|];
      [|split; [reflexivity|apply anon_reassign]].
    destruct (cr_response cr); [|split; [reflexivity|apply anon_reassign]].
    assert (F : find_ceremony E (ch_clock c) i' n' (reassign f d) =
      match find_ceremony E (ch_clock c) i' n' d with
      | inl r => inl r
      | inr (h, u) => inr ({| hr_id := hr_id h; hr_request := hr_request h;
                              hr_timestamp := hr_timestamp h; hr_user := f (hr_user h) |}, u)
      end).
    { unfold find_ceremony. destruct (ap_int E i') as [z|]; [|reflexivity]. rewrite chal_by_id_anon.
      destruct (chal_by_id z d) as [h|]; cbn [option_map]; [|reflexivity].
      change (user_by_name n' (reassign f d)) with (user_by_name n' d).
      destruct (user_by_name n' d); [|reflexivity]. cbn [hr_timestamp].
      destruct (_ <? _)%Z; reflexivity. }
    rewrite F. destruct (find_ceremony E (ch_clock c) i' n' d) as [r|[h u]];
      [split; [reflexivity|apply anon_reassign]|]. cbn [fst snd].
    change (app_attestation cr n' u {| hr_id := hr_id h; hr_request := hr_request h;
              hr_timestamp := hr_timestamp h; hr_user := f (hr_user h) |}) with (app_attestation cr n' u h).
    destruct (run_anon f (handle_credential_attestation W (app_attestation cr n' u h)) d) as [R1 R2].
    rewrite R1, R2. split; [reflexivity|apply anon_reassign].
  - unfold authentication_request. destruct un as [n|]; [|split; [reflexivity|apply anon_reassign]].
    change (user_by_name n (reassign f d)) with (user_by_name n d).
    destruct (user_by_name n d) as [u|]; [|split; [reflexivity|apply anon_reassign]].
    pose proof (insert_chal_anon f (ch_challenge c) (ch_clock c) (ur_id u) (ur_id u) d) as H.
    change (db_creds (reassign f d)) with (db_creds d).
    destruct (insert_chal _ _ _ d) as [[h d1]|e], (insert_chal _ _ _ (reassign f d)) as [[h' d2]|e'];
        try (now destruct H).
    + destruct H as [H1 H2]. cbn [fst snd]. split; [|now symmetry].
      unfold send_options. rewrite H1. reflexivity.
    + subst e'. cbn [fst snd]. split; [reflexivity|apply anon_reassign].
  - unfold authentication_response. destruct (parse_form W i k n) as [[[i' cr] n']|];
      [|split; [reflexivity|apply anon_reassign]].
    destruct (cr_response cr); [split; [reflexivity|apply anon_reassign]|].
    assert (F : find_ceremony E (ch_clock c) i' n' (reassign f d) =
      match find_ceremony E (ch_clock c) i' n' d with
      | inl r => inl r
      | inr (h, u) => inr ({| hr_id := hr_id h; hr_request := hr_request h;
                              hr_timestamp := hr_timestamp h; hr_user := f (hr_user h) |}, u)
      end).
    { unfold find_ceremony. destruct (ap_int E i') as [z|]; [|reflexivity]. rewrite chal_by_id_anon.
      destruct (chal_by_id z d) as [h|]; cbn [option_map]; [|reflexivity].
      change (user_by_name n' (reassign f d)) with (user_by_name n' d).
      destruct (user_by_name n' d); [|reflexivity]. cbn [hr_timestamp].
      destruct (_ <? _)%Z; reflexivity. }
    rewrite F. destruct (find_ceremony E (ch_clock c) i' n' d) as [r|[h u]];
      [split; [reflexivity|apply anon_reassign]|]. cbn [fst snd].
    change (app_assertion cr n' u {| hr_id := hr_id h; hr_request := hr_request h;
              hr_timestamp := hr_timestamp h; hr_user := f (hr_user h) |}) with (app_assertion cr n' u h).
    destruct (run_anon f (handle_credential_assertion W (app_assertion cr n' u h)) d) as [R1 R2].
    rewrite R1, R2. split; [reflexivity|apply anon_reassign].
Qed.

Lemma serve_all_anon l : forall d d', anon d = anon d' ->
  fst (serve_all W E d l) = fst (serve_all W E d' l).
Proof.
  induction l as [|x l IH]; intros d d' H; [reflexivity|].
  cbn [serve_all].
  destruct (serve_reassign (fun _ => 0%N) d x) as [A1 A2]. destruct (serve_reassign (fun _ => 0%N) d' x) as [B1 B2].
  fold (anon d) in A1, A2. fold (anon d') in B1, B2. rewrite H in A1, A2.
  destruct (serve W E d x) as [r d1], (serve W E d' x) as [r' d1']. cbn [fst snd] in *.
  specialize (IH d1 d1' ltac:(congruence)).
  destruct (serve_all W E d1 l), (serve_all W E d1' l). cbn [fst] in *. congruence.
Qed.
End Anon.

Lemma c56_user (W : World) (E : appenv) (f : N -> N) (d : database) (l : list (chance * request)) :
  fst (serve_all W E (reassign f d) l) = fst (serve_all W E d l).
Proof.
  apply serve_all_anon, anon_reassign.
Qed.

Lemma c56_reuse :
  exists W E l1 y l2 x i n cr cr',
    Authenticates W (snd y) i n cr /\ answer W E l1 y = Success /\
    Authenticates W (snd x) i n cr' /\ answer W E (l1 ++ y :: l2) x = Success.
Proof.
  exists ex_world, ex_env, (firstn 6 session), (do_auth "4" "alice" "challenge-4" "cred-1" 7 7000), [],
    (do_auth "4" "alice" "challenge-4" "cred-1" 8 50000), (lit "4"), (lit "alice").
  do 2 eexists. split; [eexists; split; [reflexivity|]; eexists; split; [vm_compute; reflexivity|];
    vm_compute; reflexivity|].
  split; [vm_compute; reflexivity|].
  split; [eexists; split; [reflexivity|]; eexists; split; [vm_compute; reflexivity|];
    vm_compute; reflexivity|]. vm_compute. reflexivity.
Qed.

Lemma c56_other :
  exists W E l1 y l2 x i i' id id' n n' c c' t t' cr cr',
    n <> n' /\ ap_int E i = Some id /\ ap_int E i' = Some id' /\
    (forall n0 c0 t0, Issued W E l1 n0 c0 id t0 -> c0 = c) /\ Issued W E l1 n' c id t /\
    Registers W (snd y) i n cr /\ answer W E l1 y = Success /\
    Issued W E (l1 ++ y :: l2) n' c' id' t' /\
    Authenticates W (snd x) i' n cr' /\ answer W E (l1 ++ y :: l2) x = Success.
Proof.
  exists ex_world, ex_env,
    [ask_reg "alice" "handle-a" "challenge-1" 1000; ask_reg "bob" "handle-b" "challenge-2" 2000],
    (do_reg "2" "alice" "challenge-2" "cred-b" 3000), [ask_auth "bob" "challenge-3" 4000],
    (do_auth "3" "alice" "challenge-3" "cred-b" 1 5000), (lit "2"), (lit "3"), 2%N, 3%N,
    (lit "alice"), (lit "bob"), (blit "challenge-2"), (blit "challenge-3"), 2000%Z, 4000%Z.
  do 2 eexists.
  assert (I2 : Issued ex_world ex_env [ask_reg "alice" "handle-a" "challenge-1" 1000;
      ask_reg "bob" "handle-b" "challenge-2" 2000] (lit "bob") (blit "challenge-2") 2 2000).
  { exists [ask_reg "alice" "handle-a" "challenge-1" 1000], (ask_reg "bob" "handle-b" "challenge-2" 2000).
    eexists. split; [split; [now exists []|vm_compute; reflexivity]|]. split; [now left|]. split; reflexivity. }
  split; [discriminate|]. split; [reflexivity|]. split; [reflexivity|].
  split; [intros n0 c0 t0 I0; exact (proj1 (issued_unique _ _ _ _ _ _ _ _ _ _ I0 I2))|].
  split; [exact I2|].
  split; [eexists; split; [reflexivity|]; eexists; split; [vm_compute; reflexivity|]; vm_compute; reflexivity|].
  split; [vm_compute; reflexivity|].
  split.
  { exists [ask_reg "alice" "handle-a" "challenge-1" 1000; ask_reg "bob" "handle-b" "challenge-2" 2000;
            do_reg "2" "alice" "challenge-2" "cred-b" 3000], (ask_auth "bob" "challenge-3" 4000).
    eexists. split; [split; [now exists []|vm_compute; reflexivity]|]. split; [now right|]. split; reflexivity. }
  split; [eexists; split; [reflexivity|]; eexists; split; [vm_compute; reflexivity|]; vm_compute; reflexivity|].
  vm_compute. reflexivity.
Qed.

Lemma c56_once (W : World) (E : appenv) (l1 l2 : list (chance * request)) (y x : chance * request)
  (i n i' n' : pystr) (cr cr' : credential) :
  Registers W (snd y) i n cr -> answer W E l1 y = Success ->
  Registers W (snd x) i' n' cr' -> cr_raw_id cr' = cr_raw_id cr ->
  answer W E (l1 ++ y :: l2) x <> Success.
Proof.
  intros R1 A1 R2 EQ A2. now apply (registration_once W E l1 y l2 x i n cr i' n' cr' R1 A1 R2 A2).
Qed.

Lemma c56_login_once (W : World) (E : appenv) (l1 l2 : list (chance * request)) (y x : chance * request)
  (i n i' n' : pystr) (cr cr' : credential) (cdj adb sig cdj' adb' sig' : bytes) (uh uh' : option bytes) :
  Authenticates W (snd y) i n cr -> answer W E l1 y = Success ->
  Authenticates W (snd x) i' n' cr' -> cr_raw_id cr' = cr_raw_id cr ->
  cr_response cr = AssertionResponse cdj adb sig uh ->
  cr_response cr' = AssertionResponse cdj' adb' sig' uh' ->
  (counter_of adb' <= counter_of adb)%N ->
  answer W E (l1 ++ y :: l2) x <> Success.
Proof.
  intros A1 H1 A2 EQ RE1 RE2 LE H2.
  destruct (login_row W E l1 y i n cr A1 H1) as (h & u & c & k & ad & rp & u' & _ & C1 & C2 & _ & _ & S1 & EA).
  destruct (login_row W E (l1 ++ y :: l2) x i' n' cr' A2 H2)
    as (h' & v & c' & k' & ad' & rp' & v' & _ & C1' & C2' & _ & _ & S2 & _).
  apply spec_counter in S1 as N1. apply spec_counter in S2 as N2.
  unfold assertion_counter in N1, N2. cbn [app_assertion aa_credential] in N1, N2. rewrite RE1 in N1. rewrite RE2 in N2.
  injection N1 as N1. injection N2 as N2.
  assert (R : In {| kr_id := kr_id c; kr_count := Some (Z.of_N (ad_sign_count ad)); kr_key := kr_key c;
                    kr_user := kr_user c |} (db_creds (after W E (l1 ++ [y])))).
  { rewrite EA. apply set_count_in. exists c. auto. }
  destruct (after_keeps W E (l1 ++ [y]) l2 _ R) as (c2 & R1 & R2 & _ & _ & R3).
  rewrite <- app_assoc in R1. cbn [app] in R1. cbn [kr_id kr_count] in R2, R3.
  assert (c2 = c').
  { eapply (NoDup_map_eq kr_id); [apply after_consistent|exact R1|exact C1'|]. rewrite R2, C2, C2'. now symmetry. }
  subst c2. destruct R3 as (m & R3 & R4).
  apply spec_count in S2; [|reflexivity]. cbn [cdt_sign_count] in S2. rewrite R3 in S2.
  destruct S2 as [S2|(m' & S2 & L)]; [discriminate|]. injection S2 as <-.
  fold (counter_of adb) in N1. fold (counter_of adb') in N2. lia.
Qed.

Lemma c59 (W : World) (E : appenv) (depth : nat) (l : list (chance * request)) (x : chance * request)
  (i n : pystr) (cr : credential) :
  converts E -> decodes_cbor W depth -> 2 <= depth ->
  Authenticates W (snd x) i n cr -> answer W E l x = Success ->
  exists k cdj adb sig uh,
    RegisteredKey W E l n (cr_raw_id cr) k /\
    (forall n' k', RegisteredKey W E l n' (cr_raw_id cr) k' -> n' = n /\ k' = k) /\
    cr_response cr = AssertionResponse cdj adb sig uh /\
    SignatureSpec W k sig (adb ++ w_sha256 W cdj).
Proof.
  intros CV DC LD AU H. apply (login_exact W E depth l x i n cr CV DC LD AU) in H as
    (id & n0 & c & t & hd & k & cdj & adb & sig & uh & ad & I1 & I2 & I3 & I4 & I5 & I6 & I7 & I8 & I9 & _).
  exists k, cdj, adb, sig, uh. split; [assumption|]. split; [|split; assumption].
  intros n' k' R. destruct (registered_unique W E _ _ _ _ _ _ I5 R). auto.
Qed.

Lemma c59_unique (W : World) (E : appenv) (l1 l2 : list (chance * request)) (n n' : pystr) (id : bytes) (k k' : pubkey) :
  RegisteredKey W E l1 n id k -> RegisteredKey W E (l1 ++ l2) n' id k' -> n' = n /\ k' = k.
Proof.
  intros (l0 & y & i & cr & ((l3 & ->) & A) & R) R'.
  assert (RK : RegisteredKey W E ((l0 ++ y :: l3) ++ l2) n id k).
  { exists l0, y, i, cr. split; [|exact R]. split; [|exact A]. exists (l3 ++ l2). now rewrite <- app_assoc. }
  destruct (registered_unique W E _ _ _ _ _ _ RK R'). auto.
Qed.

Section Options.
Variable W : World.
Variable E : appenv.

Lemma options_issue l x id v n : answer W E l x = Options id v -> Asks (snd x) n ->
  exists u h o, In u (db_users (after W E (l ++ [x]))) /\ ur_username u = n /\
    send_options E h (Ok o) = Options id v /\
    hr_id h = id /\ ~ In id (map hr_id (db_chals (after W E l))) /\
    ~ In (ch_challenge (fst x)) (map hr_request (db_chals (after W E l))) /\
    (snd x = RegistrationRequest (Some n) /\
     (exists co, creation_build APP_CCO_BUILDER (app_user n (ur_handle u)) (ch_challenge (fst x)) = Ok co /\
                 o = obj_of_creation co) \/
     snd x = AuthenticationRequest (Some n) /\ In u (db_users (after W E l)) /\
     (exists ro, request_build APP_CRO_BUILDER (ch_challenge (fst x))
        (Some (map (fun k => {| de_id := kr_id k; de_transports := None |})
                   (filter (fun k => N.eqb (kr_user k) (ur_id u)) (db_creds (after W E l))))) = Ok ro /\
        o = obj_of_request ro)).
Proof.
  intros HA HK. pose proof (after_move W E l x) as M. rewrite HA in M. pose proof (after_consistent W E l) as C.
  remember (after W E (l ++ [x])) as d' eqn:Hd'. remember (Options id v) as r eqn:Hr.
  destruct M as [r H1 H2|n' u d' e Q U I|n' u d1 h d2 o A U I O|i' n' cr' h u att d' Rg F S A|
                 i' n' cr' h u cdt ad u' rp Au F G S]; try discriminate.
  - subst r. now destruct (H2 id v).
  - assert (n' = n) by (destruct A as [A|A], HK as [K|K]; rewrite A in K; congruence). subst n'.
    destruct (issue_user _ x n u d1 C U) as (_ & U0 & U2 & _ & _ & U1).
    apply insert_chal_ok in I as (I0 & I & ->). rewrite U1 in *.
    assert (ID : hr_id h = id).
    { unfold send_options in Hr. destruct (jsonify _ _ _ o); [|discriminate]. now injection Hr as <- _. }
    exists u, h, o. split; [exact U0|]. split; [exact U2|]. split; [reflexivity|]. split; [exact ID|].
    split; [rewrite <- ID, I; apply next_id_fresh|]. split; [exact I0|].
    destruct O as [O|[O1 O2]]; [left; exact O|right]. split; [exact O1|]. split; [|exact O2].
    destruct U as [[U ->]|(U & _)]; [|congruence]. now apply user_by_name_in in U.
Qed.

Lemma issued_in l n c id t : Issued W E l n c id t ->
  In id (map hr_id (db_chals (after W E l))) /\ In c (map hr_request (db_chals (after W E l))).
Proof.
  intro H. apply issued_row in H as (h & H1 & H2 & H3). apply chal_by_id_in in H1 as [H1 H4].
  split; apply in_map_iff; exists h; auto.
Qed.
End Options.

Lemma c60_creation (W : World) (E : appenv) (l : list (chance * request)) (c : chance) (n : pystr) (id : N) (v : pyval) :
  converts E -> answer W E l (c, RegistrationRequest (Some n)) = Options id v ->
  exists handle,
    UserHandle W E (l ++ [(c, RegistrationRequest (Some n))]) n handle /\ PureJson v /\
    JCreation {| co_rp := {| rp_name := lit "localhost"; rp_icon := None; rp_id := lit "localhost" |};
                 co_user := {| us_name := n; us_icon := None; us_id := handle; us_display_name := n |};
                 co_challenge := ch_challenge c; co_pub_key_cred_params := [(FValue, ES256)];
                 co_timeout := Some 60000%Z; co_exclude_credentials := None;
                 co_authenticator_selection := None; co_attestation := AC_NONE;
                 co_extensions := None |} v /\
    Issued W E (l ++ [(c, RegistrationRequest (Some n))]) n (ch_challenge c) id (ch_clock c) /\
    forall n' c' id' t', Issued W E l n' c' id' t' -> id' <> id /\ c' <> ch_challenge c.
Proof.
  intros [U D] H. destruct (options_issue W E l _ id v n H (or_introl eq_refl))
    as (u & h & o & U1 & U2 & SO & ID & F1 & F2 & O).
  cbn [fst snd] in *. destruct O as [(_ & co & B & ->)|(Q & _)]; [|discriminate].
  exists (ur_handle u). split; [exists u; auto|].
  destruct (c48_creation _ _ _ _ _ _ U D B) as (w & J1 & J2 & J3 & _).
  cbn [send_options] in SO. rewrite J1 in SO. injection SO as _ <-.
  split; [exact J3|]. split; [injection B as <-; exact J2|].
  split.
  - exists l, (c, RegistrationRequest (Some n)), w. split; [|split; [now left|split; reflexivity]].
    split; [now exists []|exact H].
  - intros n' c' id' t' I. apply issued_in in I as [I1 I2]. split; intro; subst; auto.
Qed.

Lemma c60_request (W : World) (E : appenv) (l : list (chance * request)) (c : chance) (n : pystr) (id : N) (v : pyval) :
  converts E -> answer W E l (c, AuthenticationRequest (Some n)) = Options id v ->
  PureJson v /\
  JRequest {| ro_mediation := MD_OPTIONAL; ro_challenge := ch_challenge c;
              ro_timeout := Some 60000%Z; ro_rp_id := Some (lit "localhost");
              ro_allow_credentials :=
                Some (map (fun i => {| de_id := i; de_transports := None |})
                          (registered W E n empty_db l));
              ro_user_verification := Some UV_PREFERRED; ro_extensions := None |} v /\
  Issued W E (l ++ [(c, AuthenticationRequest (Some n))]) n (ch_challenge c) id (ch_clock c) /\
  forall n' c' id' t', Issued W E l n' c' id' t' -> id' <> id /\ c' <> ch_challenge c.
Proof.
  intros [U D] H. destruct (options_issue W E l _ id v n H (or_intror eq_refl))
    as (u & h & o & U1 & U2 & SO & ID & F1 & F2 & O).
  cbn [fst snd] in *. destruct O as [(Q & _)|(_ & U3 & ro & B & ->)]; [discriminate|].
  destruct (c48_request _ _ _ _ _ _ U D B) as (w & J1 & J2 & J3 & _).
  cbn [send_options] in SO. rewrite J1 in SO. injection SO as _ <-.
  split; [exact J3|].
  split.
  { rewrite <- U2, <- (proj1 (registered_owned W E l) u U3). unfold owned. rewrite map_map.
    injection B as <-. exact J2. }
  split.
  - exists l, (c, AuthenticationRequest (Some n)), w. split; [|split; [now right|split; reflexivity]].
    split; [now exists []|exact H].
  - intros n' c' id' t' I. apply issued_in in I as [I1 I2]. split; intro; subst; auto.
Qed.

Lemma c60_reg_outcome (W : World) (E : appenv) (l : list (chance * request)) (c : chance) (n : pystr) :
  converts E ->
  ((exists id v, answer W E l (c, RegistrationRequest (Some n)) = Options id v) <->
   ~ (exists h, In h (db_chals (after W E l)) /\ hr_request h = ch_challenge c) /\
   ((exists handle, UserHandle W E l n handle) \/
    ~ (exists u, In u (db_users (after W E l)) /\ ur_handle u = ch_handle c))) /\
  ((exists id v, answer W E l (c, RegistrationRequest (Some n)) = Options id v) \/
   answer W E l (c, RegistrationRequest (Some n)) = ServerError (Py EIntegrityError)).
Proof.
  intros CV. set (P1 := exists h, In h (db_chals (after W E l)) /\ hr_request h = ch_challenge c).
  assert (UH : forall n', (exists handle, UserHandle W E l n' handle) <-> exists u, user_by_name n' (after W E l) = Some u).
  { intro n'. split.
    - intros (hd & H). apply user_handle_row in H as (u & H & _). eauto.
    - intros (u & H). exists (ur_handle u). apply user_handle_row. eauto. }
  rewrite UH. unfold answer, serve. cbn [fst snd]. unfold registration_request.
  assert (CH : forall d un, db_chals d = db_chals (after W E l) ->
    (insert_chal (ch_challenge c) (ch_clock c) un d = Raise (Py EIntegrityError) /\ P1) \/
    (exists h d2, insert_chal (ch_challenge c) (ch_clock c) un d = Ok (h, d2)) /\ ~ P1).
  { intros d un ED. destruct (insert_chal (ch_challenge c) (ch_clock c) un d) as [[h d2]|e] eqn:I.
    - right. split; [eauto|]. apply insert_chal_ok in I as (I & _). rewrite ED in I.
      intros (h' & H1 & H2). apply I. rewrite <- H2. now apply in_map.
    - left. unfold insert_chal in I. destruct (existsb _ _) eqn:X; [|discriminate]. split; [congruence|].
      apply existsb_exists in X as (h & X1 & X2). apply bytes_eqb_spec in X2. exists h. rewrite <- ED. auto. }
  assert (SO : forall h u, exists id v, send_options E h (bind (creation_build APP_CCO_BUILDER
      (app_user n (ur_handle u)) (ch_challenge c)) (fun o => Ok (obj_of_creation o))) = Options id v).
  { intros h u. destruct (creation_build APP_CCO_BUILDER (app_user n (ur_handle u)) (ch_challenge c)) as [o|] eqn:B;
      [|discriminate B]. cbn [bind].
    destruct (send_options_sent E h (obj_of_creation o) CV) as (v & ->); [|eauto].
    left. eauto 10. }
  destruct (user_by_name n (after W E l)) as [u|] eqn:UN.
  - destruct (CH (after W E l) (ur_id u) eq_refl) as [[-> HP]|[(h & d2 & ->) HP]]; cbn [fst].
    + split; [|now right]. split; [intros (? & ? & ?); discriminate|]. intros [Q _]. now destruct Q.
    + destruct (SO h u) as (id & v & ->). split; [|eauto]. split; [|eauto]. intros _. split; [exact HP|]. left. eauto.
  - destruct (insert_user n (ch_handle c) (after W E l)) as [[u d1]|e] eqn:IU.
    + pose proof IU as IU'. apply insert_user_ok in IU as (I1 & I2 & I3 & ->).
      destruct (CH (add_user u (after W E l)) (ur_id u) eq_refl) as [[-> HP]|[(h & d2 & ->) HP]]; cbn [fst].
      * split; [|now right]. split; [intros (? & ? & ?); discriminate|]. intros [Q _]. now destruct Q.
      * destruct (SO h u) as (id & v & ->). split; [|eauto]. split; [|eauto]. intros _. split; [exact HP|]. right.
        intros (u' & Q1 & Q2). apply I2. rewrite <- Q2. now apply in_map.
    + unfold insert_user in IU. destruct (existsb _ _) eqn:X; [|discriminate]. injection IU as <-. cbn [fst].
      split; [|now right]. split; [intros (? & ? & ?); discriminate|].
      intros [_ [(u & Q)|Q]]; [discriminate|]. destruct Q.
      apply existsb_exists in X as (u & X1 & X2). apply orb_true_iff in X2 as [X2|X2].
      * apply str_eqb_spec in X2. apply (find_none _ _ UN) in X1. rewrite X2, str_eqb_refl in X1. discriminate.
      * apply bytes_eqb_spec in X2. eauto.
Qed.

Lemma c60_auth_outcome (W : World) (E : appenv) (l : list (chance * request)) (c : chance) (n : pystr) :
  converts E ->
  ((exists id v, answer W E l (c, AuthenticationRequest (Some n)) = Options id v) <->
   ~ (exists h, In h (db_chals (after W E l)) /\ hr_request h = ch_challenge c) /\
   (exists handle, UserHandle W E l n handle)) /\
  (answer W E l (c, AuthenticationRequest (Some n)) = Reply 400 "User not registered" <->
   ~ (exists handle, UserHandle W E l n handle)) /\
  ((exists id v, answer W E l (c, AuthenticationRequest (Some n)) = Options id v) \/
   answer W E l (c, AuthenticationRequest (Some n)) = Reply 400 "User not registered" \/
   answer W E l (c, AuthenticationRequest (Some n)) = ServerError (Py EIntegrityError)).
Proof.
  intros CV. set (P1 := exists h, In h (db_chals (after W E l)) /\ hr_request h = ch_challenge c).
  assert (UH : forall n', (exists handle, UserHandle W E l n' handle) <-> exists u, user_by_name n' (after W E l) = Some u).
  { intro n'. split.
    - intros (hd & H). apply user_handle_row in H as (u & H & _). eauto.
    - intros (u & H). exists (ur_handle u). apply user_handle_row. eauto. }
  rewrite !UH. unfold answer, serve. cbn [fst snd]. unfold authentication_request.
  destruct (user_by_name n (after W E l)) as [u|] eqn:UN.
  2:{ cbn [fst]. split; [|split; [|auto]]; split; try easy.
      - intros (? & ? & ?). discriminate.
      - intros [_ (? & ?)]. discriminate.
      - intros _ (? & ?). discriminate. }
  destruct (insert_chal (ch_challenge c) (ch_clock c) (ur_id u) (after W E l)) as [[h d2]|e] eqn:I.
  - apply insert_chal_ok in I as (I & _). cbn [fst request_build APP_CRO_BUILDER rb_mediation bind].
    edestruct (send_options_sent E h) as (v & ->).
    { exact CV. }
    { right. eexists _, APP_CRO_BUILDER, _, _. split; [reflexivity|]. reflexivity. }
    split; [|split; [|eauto]]; split; try easy; eauto.
    + intros _. split; [|eauto]. intros (h' & H1 & H2). apply I. rewrite <- H2. now apply in_map.
    + intros Q. destruct Q. eauto.
  - cbn [fst]. unfold insert_chal in I. destruct (existsb _ _) eqn:X; [|discriminate]. injection I as <-.
    apply existsb_exists in X as (h & X1 & X2). apply bytes_eqb_spec in X2.
    split; [|split; [|auto]]; split; try easy.
    + intros (? & ? & ?). discriminate.
    + intros [Q _]. destruct Q. exists h. auto.
    + intros Q. destruct Q. eauto.
Qed.

Lemma c60_handle (W : World) (E : appenv) (l1 l2 : list (chance * request)) (n : pystr) (h h' : bytes) :
  UserHandle W E l1 n h -> (UserHandle W E (l1 ++ l2) n h' <-> h' = h).
Proof.
  intros (u & U1 & U2 & U3). destruct (after_users W E l1 l2) as (us & EU).
  assert (In u (db_users (after W E (l1 ++ l2)))) by (rewrite EU; apply in_or_app; now left).
  split.
  - intros (v & V1 & V2 & V3). assert (v = u); [|congruence].
    eapply (NoDup_map_eq ur_username); [apply after_consistent|..]; eauto. congruence.
  - intros ->. exists u. auto.
Qed.

Lemma c61_login (W : World) (E : appenv) (depth : nat) (l : list (chance * request)) (x : chance * request)
  (i n : pystr) (cr : credential) :
  converts E -> decodes_cbor W depth -> 2 <= depth ->
  Authenticates W (snd x) i n cr ->
  (answer W E l x = Success <-> LoginSpec W E l (ch_clock (fst x)) i n cr).
Proof.
  apply login_exact.
Qed.

Lemma c61_registration (W : World) (E : appenv) (l : list (chance * request)) (x : chance * request)
  (i n : pystr) (cr : credential) :
  converts E -> Registers W (snd x) i n cr ->
  (answer W E l x = Success <-> RegisterSpec W E l (ch_clock (fst x)) i n cr).
Proof.
  apply registration_exact.
Qed.

Lemma oapp_some a b : a <> None -> b <> None -> oapp a b <> None.
Proof. destruct a, b; cbn; congruence. Qed.
Lemma dumps_list l : (N.of_nat (List.length l) < 2 ^ 64)%N -> Forall (fun v => cbor_dumps v <> None) l ->
  cbor_dumps (VList l) <> None.
Proof.
  intros L F. cbn [cbor_dumps]. rewrite u64_small by exact L. apply oapp_some; [discriminate|].
  clear L. induction F; [discriminate|]. apply oapp_some; assumption.
Qed.
Lemma dumps_dict d : (N.of_nat (List.length d) < 2 ^ 64)%N ->
  Forall (fun kv => cbor_dumps (fst kv) <> None /\ cbor_dumps (snd kv) <> None) d ->
  cbor_dumps (VDict d) <> None.
Proof.
  intros L F. cbn [cbor_dumps]. rewrite u64_small by exact L. apply oapp_some; [discriminate|].
  clear L. induction F as [|[k v] d [H1 H2] F IH]; [discriminate|]. cbn [fst snd] in *.
  apply oapp_some; [assumption|]. apply oapp_some; assumption.
Qed.
Lemma dumps_bytes b : (N.of_nat (List.length b) < 2 ^ 64)%N -> cbor_dumps (VBytes b) <> None.
Proof. intro L. cbn [cbor_dumps]. rewrite u64_small by exact L. discriminate. Qed.
Lemma dumps_kty m : cbor_dumps (enum_val kty_enum m) <> None.
Proof. destruct m as [[|] []]; vm_compute; discriminate. Qed.
Lemma dumps_alg m : cbor_dumps (enum_val alg_enum m) <> None.
Proof. destruct m as [[|] []]; vm_compute; discriminate. Qed.
Lemma dumps_op m : cbor_dumps (enum_val keyop_enum m) <> None.
Proof. destruct m as [[|] []]; vm_compute; discriminate. Qed.
Lemma dumps_crv m : cbor_dumps (crv_val m) <> None.
Proof. destruct m as [[|] []]; vm_compute; discriminate. Qed.
Lemma cose_key_ok k : WellFormedKey k -> key_fits k -> exists b, cose_key (Some k) = Ok b.
Proof.
  intros WF (F1 & F2 & F3).
  assert (Q : forall bb tl, kb_alg bb <> None ->
    (forall i, kb_kid bb = Some i -> (N.of_nat (List.length i) < 2 ^ 64)%N) ->
    (forall i, kb_key_ops bb = Some i -> (N.of_nat (List.length i) < 2 ^ 64)%N) ->
    (forall i, kb_base_IV bb = Some i -> (N.of_nat (List.length i) < 2 ^ 64)%N) ->
    (N.of_nat (List.length tl) < 10)%N ->
    Forall (fun kv => cbor_dumps (fst kv) <> None /\ cbor_dumps (snd kv) <> None) tl ->
    exists d0, base_cose_dictionary bb = Ok d0 /\ cbor_dumps (VDict (d0 ++ tl)) <> None).
  { intros bb tl A G1 G2 G3 LT FT. unfold base_cose_dictionary. destruct (kb_alg bb) as [a|]; [|easy].
    cbn [assert_some bind]. eexists. split; [reflexivity|]. apply dumps_dict.
    - rewrite !app_length. destruct (kb_kid bb), (kb_key_ops bb); cbn [opt_entry List.length]; lia.
    - apply Forall_app. split; [|exact FT].
      assert (I : forall z, In z [1; 2; 3; 4; 5]%Z -> cbor_dumps (VInt z) <> None).
      { intros z Hz. repeat (destruct Hz as [<-|Hz]; [vm_compute; discriminate|]). destruct Hz. }
      repeat (apply Forall_app; split).
      + repeat constructor; cbn [fst snd]; [apply I; cbn; auto|apply dumps_kty].
      + destruct (kb_kid bb) as [i|]; cbn [opt_entry]; [|constructor]. repeat constructor; cbn [fst snd];
          [apply I; cbn; auto|now apply dumps_bytes, G1].
      + repeat constructor; cbn [fst snd]; [apply I; cbn; auto|apply dumps_alg].
      + destruct (kb_key_ops bb) as [ops|]; cbn [opt_entry]; [|constructor]. repeat constructor; cbn [fst snd];
          [apply I; cbn; auto|]. apply dumps_list; [rewrite map_length; now apply G2|].
        apply Forall_forall. intros v Hv. apply in_map_iff in Hv as (m & <- & _). apply dumps_op.
      + destruct (kb_key_ops bb) as [ops|]; cbn [opt_entry]; [|constructor]. repeat constructor; cbn [fst snd];
          [apply I; cbn; auto 6|]. destruct (kb_base_IV bb) as [iv|]; [now apply dumps_bytes, G3|discriminate]. }
  assert (I2 : forall z, In z [-1; -2; -3]%Z -> cbor_dumps (VInt z) <> None).
  { intros z Hz. repeat (destruct Hz as [<-|Hz]; [vm_compute; discriminate|]). destruct Hz. }
  assert (CL : forall c x, List.length x = coord_len c -> cbor_dumps (VBytes x) <> None).
  { intros c x L. apply dumps_bytes. rewrite L. destruct c; vm_compute; reflexivity. }
  unfold cose_key. destruct k as [b x y [f c]|b [f c] x|b]; cbn [WellFormedKey key_base_of] in *; [| |destruct WF].
  - destruct WF as (_ & WA & _ & _ & WX & WY).
    destruct (Q b [(VInt (-1), crv_val (f, c)); (VInt (-2), VBytes x); (VInt (-3), VBytes y)]
      WA F1 F2 F3 ltac:(cbn; lia)) as (d0 & D1 & D2).
    { repeat constructor; cbn [fst snd]; try (apply I2; cbn; auto); [apply dumps_crv|eapply CL; eauto..]. }
    cbn [cose_dictionary]. rewrite D1. cbn [bind]. destruct (cbor_dumps _); [eauto|easy].
  - destruct WF as (_ & WA & _ & _ & WX).
    destruct (Q b [(VInt (-1), crv_val (f, c)); (VInt (-2), VBytes x)]
      WA F1 F2 F3 ltac:(cbn; lia)) as (d0 & D1 & D2).
    { repeat constructor; cbn [fst snd]; try (apply I2; cbn; auto); [apply dumps_crv|eapply CL; eauto]. }
    cbn [cose_dictionary]. rewrite D1. cbn [bind]. destruct (cbor_dumps _); [eauto|easy].
Qed.

Lemma c61_encodable (W : World) (cr : credential) (k : pubkey) :
  AttestedKey W cr k -> key_fits k -> exists b, cose_key (Some k) = Ok b.
Proof.
  intros A F. apply attested_key_well_formed in A as [A _]. now apply cose_key_ok.
Qed.

Lemma c61_answered (W : World) (E : appenv) (l : list (chance * request)) (c : chance) (i k n : option pystr) (q : request) :
  q = RegistrationResponse i k n \/ q = AuthenticationResponse i k n ->
  answer W E l (c, q) = Success \/
  (exists s text, answer W E l (c, q) = Reply s text /\ (s = 400 \/ s = 408)%N) /\
  after W E (l ++ [(c, q)]) = after W E l.
Proof.
  intro Q. rewrite after_snoc. unfold answer, serve. cbn [fst snd].
  assert (FC : forall i' n' r, find_ceremony E (ch_clock c) i' n' (after W E l) = inl r ->
     exists s text, r = Reply s text /\ (s = 400 \/ s = 408)%N).
  { intros i' n' r. unfold find_ceremony.
    destruct (match ap_int E i' with Some _ => _ | None => _ end); [|intros [= <-]; eauto].
    destruct (user_by_name n' (after W E l)); [|intros [= <-]; eauto].
    destruct (_ <? _)%Z; [|discriminate]. intros [= <-]; eauto. }
  destruct Q as [-> | ->].
  - unfold registration_response. destruct (parse_form W i k n) as [[[i' cr] n']|]; [|right; cbn; eauto 10].
    destruct (cr_response cr); [|right; cbn; eauto 10].
    destruct (find_ceremony E (ch_clock c) i' n' (after W E l)) as [r|[h u]] eqn:F.
    + apply FC in F as (s & t & -> & F). right. cbn. eauto 10.
    + cbn [fst snd].
      pose proof (civil_registration W (app_registrar W) (after W E l) (app_attestation cr n' u h) (app_civil W)) as X.
      destruct (registration_run W _ _ _ _ _ (state_eta (run (app_registrar W) (after W E l)
        (handle_credential_attestation W (app_attestation cr n' u h))))) as [[R ->]|(R & _)].
      * right. destruct X as [X|(e & -> & X)]; [congruence|]. cbn [conclude is_lib]. rewrite X. eauto 10.
      * left. rewrite R. reflexivity.
  - unfold authentication_response. destruct (parse_form W i k n) as [[[i' cr] n']|]; [|right; cbn; eauto 10].
    destruct (cr_response cr); [right; cbn; eauto 10|].
    destruct (find_ceremony E (ch_clock c) i' n' (after W E l)) as [r|[h u]] eqn:F.
    + apply FC in F as (s & t & -> & F). right. cbn. eauto 10.
    + cbn [fst snd].
      pose proof (civil_login W (app_registrar W) (after W E l) (app_assertion cr n' u h) (app_civil W)) as X.
      destruct (authentication_run W _ _ _ _ _ (state_eta (run (app_registrar W) (after W E l)
        (handle_credential_assertion W (app_assertion cr n' u h))))) as [[R ->]|(R & _)].
      * right. destruct X as [X|(e & -> & X)]; [congruence|]. cbn [conclude is_lib]. rewrite X. eauto 10.
      * left. rewrite R. reflexivity.
Qed.

Lemma c61_login_effect (W : World) (E : appenv) (l : list (chance * request)) (x : chance * request) (i n : pystr) (cr : credential)
  (cdj adb sig : bytes) (uh : option bytes) :
  Authenticates W (snd x) i n cr -> answer W E l x = Success ->
  cr_response cr = AssertionResponse cdj adb sig uh ->
  db_users (after W E (l ++ [x])) = db_users (after W E l) /\
  db_chals (after W E (l ++ [x])) = db_chals (after W E l) /\
  exists a c b,
    db_creds (after W E l) = a ++ c :: b /\ kr_id c = cr_raw_id cr /\
    db_creds (after W E (l ++ [x])) =
      a ++ {| kr_id := kr_id c; kr_count := Some (Z.of_N (counter_of adb)); kr_key := kr_key c;
              kr_user := kr_user c |} :: b.
Proof.
  intros A H RE. destruct (login_row W E l x i n cr A H) as (h & u & c & k & ad & rp & u' & _ & C1 & C2 & _ & _ & S & ->).
  split; [reflexivity|]. split; [reflexivity|].
  apply spec_counter in S. unfold assertion_counter in S. cbn [app_assertion aa_credential] in S. rewrite RE in S.
  injection S as S. fold (counter_of adb) in S. rewrite S.
  pose proof (con_cred_id _ (after_consistent W E l)) as ND.
  destruct (in_split _ _ C1) as (a & b & EQ). exists a, c, b. split; [exact EQ|]. split; [exact C2|].
  cbn [set_count db_creds]. rewrite EQ in *. rewrite map_app in *. cbn [map] in *.
  apply NoDup_remove_2 in ND.
  assert (Q : forall c', In c' (a ++ b) -> bytes_eqb (kr_id c') (cr_raw_id cr) = false).
  { intros c' I. apply bytes_eqb_false. rewrite <- C2. intro Z. apply ND. rewrite <- Z, <- map_app. now apply in_map. }
  f_equal; [|f_equal].
  - rewrite <- (map_id a) at 2. apply map_ext_in. intros c' I. rewrite Q; [reflexivity|apply in_or_app; now left].
  - rewrite C2, bytes_eqb_refl. reflexivity.
  - rewrite <- (map_id b) at 2. apply map_ext_in. intros c' I. rewrite Q; [reflexivity|apply in_or_app; now right].
Qed.

Lemma c61_reg_effect (W : World) (E : appenv) (l : list (chance * request)) (x : chance * request) (i n : pystr) (cr : credential) :
  Registers W (snd x) i n cr -> answer W E l x = Success ->
  db_users (after W E (l ++ [x])) = db_users (after W E l) /\
  db_chals (after W E (l ++ [x])) = db_chals (after W E l) /\
  exists u k b,
    In u (db_users (after W E l)) /\ ur_username u = n /\ AttestedKey W cr k /\ cose_key (Some k) = Ok b /\
    db_creds (after W E (l ++ [x])) =
      db_creds (after W E l) ++ [{| kr_id := cr_raw_id cr; kr_count := None; kr_key := b; kr_user := ur_id u |}].
Proof.
  intros R H. pose proof (after_move W E l x) as M. rewrite H in M. pose proof (after_consistent W E l) as C.
  remember (after W E (l ++ [x])) as d' eqn:Hd'. remember Success as r eqn:Hr.
  destruct M as [r H1 H2|n' u d' e Q U I|n' u d1 h d2 o A U I O|i' n' cr' h u att d' Rg F S A|
                 i' n' cr' h u cdt ad u' rp Au F G S].
  - congruence.
  - discriminate.
  - unfold send_options in Hr. destruct (jsonify _ _ _ o); discriminate.
  - destruct (registers_fun W _ _ _ _ _ _ _ R Rg) as (<- & <- & <-).
    apply app_attest_ok in A as (ad & acd & row & kb & A1 & A2 & A3 & A4 & I).
    apply insert_cred_ok in I as (_ & ->). split; [reflexivity|]. split; [reflexivity|].
    destruct (registration_key W _ _ _ _ _ _ _ S A1 A2) as (k & K & AK). rewrite K in A4.
    apply find_ceremony_ok in F as (_ & F & _). apply user_by_name_in in F as [F1 F2].
    cbn [app_user us_id] in A3. rewrite (user_by_handle_find _ u C F1) in A3. injection A3 as <-.
    exists u, k, kb. auto.
  - destruct R as (t & Q & _), Au as (t' & Q' & _). congruence.
Qed.
