(** * WebExamples: two pages at once. *)
From Coq Require Import List NArith ZArith Bool String Lia.
From Verif Require Import Base BaseFacts PyVal B64 Json JsonSpec CodecSpec Types World Parsers Crypto Backends
  Spec OptionSpec App AppSpec Examples AppExamples AppTheorems HonestSpec HonestFacts AppHonest
  Dumps DumpsSpec Form Page PageSpec PageExamples
  AppConc AppConcSpec AppConcHonestSpec AppConcExamples AppConcHonest AppConcHonestEx Web WebSpec WebFacts WebHonest.
Import ListNotations.
Local Open Scope list_scope.

Notation ex_web := (Web ex_browser ex_world ex_env ex_json (fun _ => []) (fun _ => [])).
Notation ex_page := (IsPage ex_browser ex_world ex_env ex_json (fun _ => []) (fun _ => [])).
Notation ex_server l := (wb_server (ex_web l)).

(** Two pages are open; alice is typed into one, bob into the other. *)
Definition opened : list web_event := [Load; Load; At 0 (Type_ (lit "alice")); At 1 (Type_ (lit "bob"))].
Definition together (i j n : nat) : list web_event :=
  flat_map (fun _ => [Server (Proceed i); Server (Proceed j)]) (seq 0 n).
(** While alice registers, bob does the same; their requests are handled together, one
    statement each at a time, and one more name is typed into alice's page. *)
Definition meanwhile (m : nat) : list web_event :=
  match m with
  | 0%nat => [At 1 ClickRegister; Send 1 0 (chance_of "handle-b" "challenge-2" 1100)]
  | 1%nat => together 1 0 5
  | 3%nat => [Answer 1 0; At 1 (Deliver 0); At 0 (Type_ (lit "carol")); At 1 (Parse 0)]
  | 4%nat => [At 1 (Created 0 (Some (ex_att "challenge-2" "cred-2")))]
  | 6%nat => [At 1 (Resume 0); Send 1 0 (chance_of "" "" 1900)]
  | 7%nat => together 2 3 6
  | 8%nat => [Answer 1 0; At 1 (Deliver 0)]
  | _ => []
  end.
Lemma meanwhile_apart m : Apart 0 (meanwhile m).
Proof.
  intros e I Q. do 9 (destruct m as [|m]; [cbn in I; repeat (destruct I as [<-|I]; [try discriminate Q; eauto|]); destruct I|]).
  destruct I.
Qed.
Definition reg1 := opened ++ web_click 0 ClickRegister meanwhile.
Definition reg2 := reg1 ++ web_ask 0 0 (chance_of "handle-a" "challenge-1" 1000) meanwhile.
Definition reg3 := (reg2 ++ web_read 0 0 meanwhile) ++ web_sign 0 0 (Created 0 (Some (ex_att "challenge-1" "cred-1"))) meanwhile.
Definition reg4 := reg3 ++ web_tell 0 0 (chance_of "" "" 2000) meanwhile.
Definition reg5 := reg4 ++ web_end 0 0 meanwhile.

(** Then alice logs in while bob asks for options and another client asks for alice's, which
    takes number 3. *)
Definition retyped : list web_event := reg5 ++ [At 0 (Type_ (lit "alice"))].
Definition meantime (m : nat) : list web_event :=
  match m with
  | 0%nat => [At 1 ClickAuthenticate; Send 1 1 (chance_of "" "challenge-9" 5500); Server (Arrive (ask_auth "alice" "challenge-3" 5000))] ++
             map (fun j => Server (Proceed j)) [4; 5; 4; 5; 5; 5; 5]
  | 1%nat => together 6 4 6
  | 5%nat => [Answer 1 1; At 1 (Deliver 1)]
  | 7%nat => together 7 4 6
  | _ => []
  end.
Lemma meantime_apart m : Apart 0 (meantime m).
Proof.
  intros e I Q. do 8 (destruct m as [|m]; [cbn in I; repeat (destruct I as [<-|I]; [try discriminate Q; eauto|]); destruct I|]).
  destruct I.
Qed.
Definition log1 := retyped ++ web_click 0 ClickAuthenticate meantime.
Definition log2 := log1 ++ web_ask 0 1 (chance_of "" "challenge-4" 6000) meantime.
Definition log3 := (log2 ++ web_read 0 1 meantime) ++ web_sign 0 1 (Got 1 (Some (ex_ass "challenge-4" "cred-1" 7))) meantime.
Definition log4 := log3 ++ web_tell 0 1 (chance_of "" "" 7000) meantime.
Definition log5 := log4 ++ web_end 0 1 meantime.


(** The hypotheses of C97 for these runs. *)
Lemma ex_reg_page : exists g, ex_page opened 0 g /\ pg_tasks g = [] /\ g_input (pg_globals g) = lit "alice".
Proof. eexists. split; [vm_compute; reflexivity|]. split; reflexivity. Qed.
Lemma ex_reg_replied : exists v, Replied (ex_server reg2) (next (ex_server reg1))
  (chance_of "handle-a" "challenge-1" 1000, RegistrationRequest (Some (usv (lit "alice")))) (Options 1 v).
Proof. eexists. vm_compute. reflexivity. Qed.
Lemma ex_reg_next : next (ex_server reg3) = 3.
Proof. vm_compute. reflexivity. Qed.
Lemma ex_reg_only : OnlyRegistration ex_world (ex_server reg4) 3 (blit "cred-1").
Proof. apply only_registration_by. vm_compute. reflexivity. Qed.
Lemma ex_log_page : exists g, ex_page retyped 0 g /\ List.length (pg_tasks g) = 1 /\ g_input (pg_globals g) = lit "alice".
Proof. eexists. split; [vm_compute; reflexivity|]. split; reflexivity. Qed.
Lemma ex_log_replied : exists v, Replied (ex_server log2) (next (ex_server log1))
  (chance_of "" "challenge-4" 6000, AuthenticationRequest (Some (usv (lit "alice")))) (Options 5 v).
Proof. eexists. vm_compute. reflexivity. Qed.
Lemma ex_log_next : next (ex_server log3) = 7.
Proof. vm_compute. reflexivity. Qed.
Lemma ex_log_handle : HasHandle (ex_server log3) (lit "alice") (blit "handle-a").
Proof. eexists. split; [vm_compute; left; reflexivity|]. split; reflexivity. Qed.
Lemma ex_log_largest : LargestLogin ex_world (ex_server log4) 7 (blit "cred-1") 7.
Proof. apply largest_login_by. vm_compute. reflexivity. Qed.
(** The key is that of the registration before. *)
Lemma ex_log_accepted : AcceptedKey ex_world (ex_server log3) (lit "alice") (blit "cred-1") ex_key.
Proof.
  destruct ex_reg_page as (g & H & T & I). destruct ex_reg_replied as (v & R).
  pose proof (c97_registration ex_browser ex_world ex_env ex_json (fun _ => []) (fun _ => []) 900 opened 0 g
    (chance_of "handle-a" "challenge-1" 1000) (chance_of "" "" 2000) meanwhile 1 v
    (ex_att "challenge-1" "cred-1") ex_registration (blit "cred-1") ex_key 0
    ex_limits ex_converts ex_conforming ex_parses ex_decimal meanwhile_apart) as K.
  cbv zeta in K. rewrite T, I in K. cbn [List.length] in K. fold reg1 in K. fold reg2 in K. fold reg3 in K. fold reg4 in K. fold reg5 in K.
  rewrite ex_reg_next in K.
  destruct K as (g' & _ & _ & _ & (j & y & i & cr & A1 & A2)); [exact H|repeat constructor|discriminate|exact R|exact ex_attests|
    exact ex_registration_honest|exact ex_reg_only|discriminate| | |].
  - vm_compute. intuition discriminate.
  - vm_compute. repeat constructor.
  - exists j, y, i, cr. split; [|exact A2]. unfold log3, log2, log1, retyped. rewrite <- !app_assoc. now apply srv_replied.
Qed.

(** Alice is patient, and so the message at the end is of alice's own login. *)
Definition idle_page (w : web) (p : nat) : bool :=
  match nth_error (wb_pages w) p with
  | Some g => forallb (fun t => match t with Finished | Threw => true | _ => false end) (pg_tasks g)
  | None => true
  end.
Fixpoint patient_check (p : nat) (w : web) (l : list web_event) : bool :=
  match l with
  | [] => true
  | e :: t => match e with
              | At q (ClickRegister | ClickAuthenticate) => if Nat.eqb q p then idle_page w p else true
              | At q (Type_ x) => if Nat.eqb q p then forallb (fun u => N.ltb u 65536) x else true
              | _ => true
              end && patient_check p (web_happens ex_browser ex_world ex_env ex_json (fun _ => []) (fun _ => []) w e) t
  end.
Lemma patient_checked p l : patient_check p new_web l = true ->
  Patient ex_browser ex_world ex_env ex_json (fun _ => []) (fun _ => []) p l.
Proof.
  intro H. split.
  - intros l1 e l2 g -> C P. revert H P. unfold WebSpec.IsPage, WebSpec.Web. generalize new_web.
    induction l1 as [|x l1 IH]; intros w H P; cbn [app patient_check] in H; apply andb_prop in H as [H1 H2].
    + assert (I : idle_page w p = true) by (destruct C as [-> | ->]; now rewrite Nat.eqb_refl in H1).
      unfold idle_page in I. cbn in P. rewrite P in I. rewrite forallb_forall in I.
      apply Forall_forall. intros t T. specialize (I t T). destruct t; try discriminate I; auto.
    + exact (IH _ H2 P).
  - intros t. revert H. generalize new_web. induction l as [|x l IH]; intros w H I; [destruct I|]; destruct I as [I|I]; cbn [patient_check] in H; apply andb_prop in H as [H1 H2].
    + subst x. rewrite Nat.eqb_refl in H1. rewrite forallb_forall in H1. apply Forall_forall. intros u U. now apply N.ltb_lt, H1.
    + exact (IH _ H2 I).
Qed.
Lemma ex_patient : Patient ex_browser ex_world ex_env ex_json (fun _ => []) (fun _ => []) 0 log5.
Proof. apply patient_checked. vm_compute. reflexivity. Qed.
Lemma ex_shown : exists g, ex_page log5 0 g /\ g_status (pg_globals g) = authorized_text (lit "alice").
Proof. eexists. split; [vm_compute; reflexivity|]. vm_compute. reflexivity. Qed.
