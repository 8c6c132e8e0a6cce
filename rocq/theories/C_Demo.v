(* C59, C60 and C75..C77: the demo program. *)
From Coq Require Import Permutation.
From Verif Require Import Base M_Str M_Json M_Crypto M_Cose M_State M_Client M_Ctap M_U2f M_Demo M_History.
From Verif Require Import S_Crypto S_State S_Client S_Ctap S_U2f S_Demo S_History.
From Verif Require Import P_Client P_Torn P_History P_History2 P_Demo P_Toy P_ToyHist C_History.

(* ---------------------------------------------------------------- C59 *)
(* Wherever the process is killed, the file is the old or the new data. *)
Definition C59_full : Prop := forall n data old,
  on_disk (write_steps n data (SvBegin old)) = old \/ on_disk (write_steps n data (SvBegin old)) = Some data.

(* What holds: if a process is killed during the save of a request, the file is the old data,
   the new data, or a proper prefix of the new data.  In the first two cases the device
   starts again; in the last it never does, but neither does it start without its data. *)
Theorem C59_killed_partial : forall E h w i w' r es d rest n f, env_ok E -> history E h true w -> starts_ok E h ->
  good_input i -> handle E i w = (w', r) -> w_trace w' = w_trace w ++ es ++ EvSave d :: rest ->
  f = on_disk (write_steps n d (SvBegin (saved_in (w_trace w ++ es)))) ->
  ((f = saved_in (w_trace w) \/ f = Some d) /\
     forall p w2, params_ok E p -> exists w3, start E p (retrieve f) w2 = (w3, Ok tt)) \/
  (exists g, f = Some g /\ torn g d /\
     forall p w2 w3 r3, start E p (retrieve f) w2 = (w3, r3) -> r3 = Panic /\ w_trace w3 = w_trace w2).
Proof. exact killed_while_saving. Qed.
Print Assumptions C59_killed_partial.

(* A save that is not interrupted leaves the new data, whatever was there. *)
Theorem C59_complete : forall n data old, (length data < n)%nat ->
  on_disk (write_steps n data (SvBegin old)) = Some data.
Proof. exact save_completes. Qed.
Print Assumptions C59_complete.

(* Killed between opening and writing: the old data are gone and the file is empty; the
   device of the example, with two credentials registered, does not start again. *)
Theorem C59_torn_refuted : ~ C59_full.
Proof. exact (fun H => match H 1%nat [7] (Some [9]) with
                       | or_introl X => ltac:(discriminate X) | or_intror X => ltac:(discriminate X) end). Qed.
Print Assumptions C59_torn_refuted.

Definition hist2 : list entry := [HStart P0; HDone mcA (OBytes r1A)].
Definition world2 : world := last_world [MvStart P0; MvDo mcA].
Definition saved2 : bytes := match saves (skipn (length (w_trace world2)) (w_trace (fst (handle (toyE true) mcB world2)))) with
  | [d] => d | _ => [] end.

Lemma hist2_ok : history (toyE true) hist2 true world2 /\ starts_ok (toyE true) hist2.
Proof.
  assert (ST : starts_ok (toyE true) hist2) by (unfold hist2; toy_starts). split; [|exact ST].
  replace true with (last_up [MvStart P0; MvDo mcA]) at 2 by (vm_compute; reflexivity).
  apply (hist_ok [MvStart P0; MvDo mcA] hist2); [vm_compute; reflexivity|vm_compute; reflexivity|exact ST].
Qed.

(* A device with one credential, killed while it saves the second one. *)
Example C59_example : exists es rest r,
  history (toyE true) hist2 true world2 /\ starts_ok (toyE true) hist2 /\ good_input mcB /\
  handle (toyE true) mcB world2 = (fst (handle (toyE true) mcB world2), r) /\
  w_trace (fst (handle (toyE true) mcB world2)) = w_trace world2 ++ es ++ EvSave saved2 :: rest /\
  on_disk (write_steps 1 saved2 (SvBegin (saved_in (w_trace world2 ++ es)))) = Some [] /\
  torn [] saved2 /\ saved_in (w_trace world2) <> None.
Proof.
  exists [EvAsk ActMakeCredential [65; 66] [] true], [], (snd (handle (toyE true) mcB world2)).
  destruct hist2_ok as [A B]. split; [exact A|]. split; [exact B|].
  split; [apply wfbb_iff; vm_compute; reflexivity|].
  split; [destruct (handle (toyE true) mcB world2); reflexivity|].
  split; [vm_compute; reflexivity|]. split; [vm_compute; reflexivity|].
  split; [eexists _, _; vm_compute; reflexivity|vm_compute; discriminate].
Qed.

(* ---------------------------------------------------------------- C60 *)
Definition C60_full : Prop := forall E prefix l w w' r, env_ok E -> client_ok E (w_client w) ->
  NoDup (map cs_id (cl_vault (w_client w))) ->
  those (named prefix) (cl_vault (w_client w)) l -> delete_command E prefix w = (w', r) ->
  match l with
  | [s] => exists v, Permutation (cl_vault (w_client w)) (s :: v) /\ Permutation (cl_vault (w_client w')) v
  | _ => cl_vault (w_client w') = cl_vault (w_client w)
  end.

(* What holds: without a match, or with several, nothing happens; with one match the last
   identity listed is deleted and the change saved. *)
Theorem C60_delete_partial : forall E prefix l w w' r, env_ok E -> client_ok E (w_client w) ->
  those (named prefix) (cl_vault (w_client w)) l -> delete_command E prefix w = (w', r) ->
  match l with
  | [] => w' = w /\ r = Ok RepNone
  | [_] => exists v z v' d, cl_vault (w_client w) = v ++ [z] /\ r = Ok (RepDeleted (cs_id z) true) /\
      delete_identity (cl_vault (w_client w)) (cs_id z) = (v', true) /\ w_client w' = set_vault (w_client w) v' /\
      client_ok E (w_client w') /\ w_trace w' = w_trace w ++ [EvSave d] /\ stored E d (w_client w')
  | _ => w' = w /\ exists ids, r = Ok (RepSeveral ids) /\ length ids = length l
  end.
Proof. exact delete_command_does. Qed.
Print Assumptions C60_delete_partial.

(* So the right identity is deleted if it happens to be the last. *)
Theorem C60_last_partial : forall E prefix s w w' r v z, env_ok E -> client_ok E (w_client w) ->
  NoDup (map cs_id (cl_vault (w_client w))) -> cl_vault (w_client w) = v ++ [z] ->
  those (named prefix) (cl_vault (w_client w)) [s] -> delete_command E prefix w = (w', r) ->
  r = Ok (RepDeleted (cs_id z) true) /\ Permutation (cl_vault (w_client w')) v.
Proof. exact delete_last. Qed.
Print Assumptions C60_last_partial.

(* The ids of the example device end in 4 and d. *)
Definition full4 : bytes := str "00000000000000000000000000000004".
Definition fulld : bytes := str "0000000000000000000000000000000d".

Lemma two_ids : map cs_id (cl_vault (w_client two)) = [be 16 4; be 16 13] /\
  exists a b, cl_vault (w_client two) = [a; b] /\ cs_id a = be 16 4 /\ cs_id b = be 16 13.
Proof.
  split; [vm_compute; reflexivity|]. eexists _, _. split; [vm_compute; reflexivity|]. split; vm_compute; reflexivity.
Qed.

Lemma hex4 : hex_text (be 16 4) full4 /\ hex_text (be 16 13) fulld.
Proof. split; [change full4 with (hex_encode (be 16 4))|change fulld with (hex_encode (be 16 13))]; apply hex_encode_text, be_wf. Qed.

Lemma named_two : exists a b, cl_vault (w_client two) = [a; b] /\ cs_id a = be 16 4 /\ cs_id b = be 16 13 /\
  those (named full4) (cl_vault (w_client two)) [a] /\ those (named (str "0000")) (cl_vault (w_client two)) [a; b] /\
  those (named fulld) (cl_vault (w_client two)) [b] /\ those (named (str "1")) (cl_vault (w_client two)) [].
Proof.
  destruct two_ids as (_ & a & b & V & A & B). exists a, b. rewrite V. split; [reflexivity|]. split; [exact A|]. split; [exact B|].
  assert (W : wfb (cs_id a) /\ wfb (cs_id b)) by (rewrite A, B; split; apply be_wf). destruct W as [Wa Wb].
  repeat split; repeat first [apply Th_nil | apply Th_in; [apply has_prefix_named; [assumption|rewrite ?A, ?B; vm_compute; reflexivity]|]
    | apply Th_out; [intro X; apply has_prefix_named in X; [rewrite ?A, ?B in X; vm_compute in X; discriminate X|assumption]|]].
Qed.

(* `delete --identity 00000000000000000000000000000004` deletes ...0d. *)
Theorem C60_other_refuted : ~ C60_full.
Proof.
  intro H. destruct named_two as (a & b & V & A & B & T & _).
  destruct (delete_command (toyE true) full4 two) as [w' r] eqn:D.
  specialize (H (toyE true) full4 [a] two w' r (toyE_ok true) (two_ok true)). rewrite (proj1 two_ids) in H.
  assert (N : NoDup [be 16 4; be 16 13]).
  { constructor; [intros [X|[]]; vm_compute in X; discriminate X|]. constructor; [intros []|constructor]. }
  destruct (H N T D) as (v & P1 & P2).
  assert (I : map cs_id (cl_vault (w_client w')) = [be 16 4]).
  { replace w' with (fst (delete_command (toyE true) full4 two)) by (now rewrite D). vm_compute. reflexivity. }
  rewrite V in P1. apply Permutation_cons_inv in P1. apply Permutation_sym in P1.
  pose proof (Permutation_map cs_id (Permutation_trans P2 P1)) as P. rewrite I in P. cbn [map] in P. rewrite B in P.
  apply Permutation_length_1 in P. vm_compute in P. discriminate P.
Qed.
Print Assumptions C60_other_refuted.

Example C60_example : client_ok (toyE true) (w_client two) /\ NoDup (map cs_id (cl_vault (w_client two))) /\
  exists a b, cl_vault (w_client two) = [a] ++ [b] /\ those (named full4) (cl_vault (w_client two)) [a] /\
    those (named (str "0000")) (cl_vault (w_client two)) [a; b] /\
    those (named fulld) (cl_vault (w_client two)) [b] /\ those (named (str "1")) (cl_vault (w_client two)) [].
Proof.
  split; [apply two_ok|]. split.
  - rewrite (proj1 two_ids). constructor; [intros [X|[]]; vm_compute in X; discriminate X|]. constructor; [intros []|constructor].
  - destruct named_two as (a & b & V & _ & _ & T). exists a, b. split; [exact V|exact T].
Qed.

(* ---------------------------------------------------------------- C75 *)
Definition quote_in (x y : bytes) : bytes := x ++ [34] ++ str " with identity " ++ [34] ++ y.

Lemma no_registration : ~ mentions (question ActU2FRegister [] []) (str "registration").
Proof.
  intros (a & b & H). assert (X : exists k, (k < 33)%nat /\ k = length a).
  { exists (length a). split; [|reflexivity]. apply (f_equal (@length N)) in H. rewrite !app_length in H.
    change (length (question ActU2FRegister [] [])) with 32%nat in H. lia. }
  destruct X as (k & Lk & K). apply (f_equal (fun s => firstn 12 (skipn k s))) in H.
  rewrite K, skipn_app, skipn_all, Nat.sub_diag in H. cbn [app skipn] in H. rewrite firstn_app in H.
  change (length (str "registration")) with 12%nat in H. cbn [Nat.sub firstn] in H. rewrite app_nil_r in H.
  rewrite <- K in H. clear K a b. do 33 (destruct k as [|k]; [vm_compute in H; discriminate H|]). lia.
Qed.

(* The user is asked about what is about to happen: registration or use of the key, *)
Definition C75_full : Prop :=
  (forall rp user, mentions (question ActU2FRegister rp user) (str "registration")) /\
  (forall rp user, mentions (question ActU2FAuthenticate rp user) (str "use")).
(* and from the question one can tell who asks. *)
Definition C75_full_login : Prop := forall rp user rp' user',
  question ActGetAssertion rp user = question ActGetAssertion rp' user' -> rp = rp' /\ user = user'.

Theorem C75_swapped_refuted : ~ C75_full.
Proof. exact (fun H => no_registration (proj1 H [] [])). Qed.
Print Assumptions C75_swapped_refuted.

Theorem C75_login_refuted : ~ C75_full_login.
Proof.
  intro H. destruct (H (quote_in (str "a") (str "b")) (str "c") (str "a") (quote_in (str "b") (str "c"))) as [X _].
  - vm_compute. reflexivity.
  - vm_compute in X. discriminate X.
Qed.
Print Assumptions C75_login_refuted.

(* What holds: different actions are asked about differently, *)
Theorem C75_actions_partial : forall a rp user a' rp' user', question a rp user = question a' rp' user' -> a = a'.
Proof. exact question_action. Qed.
Print Assumptions C75_actions_partial.

(* the names occur in the question, *)
Theorem C75_login_partial : forall rp user,
  mentions (question ActGetAssertion rp user) rp /\ mentions (question ActGetAssertion rp user) user.
Proof. exact login_mentions. Qed.
Print Assumptions C75_login_partial.

Theorem C75_creation : forall rp user rp' user',
  mentions (question ActMakeCredential rp user) rp /\
  (question ActMakeCredential rp user = question ActMakeCredential rp' user' -> rp = rp').
Proof. exact (fun rp user rp' user' => conj (creation_mentions rp user) (creation_unambiguous rp user rp' user')). Qed.
Print Assumptions C75_creation.

(* a relying party without quotes in its name cannot pass for another, *)
Theorem C75_no_quotes_partial : forall rp user rp' user', ~ In 34 rp -> ~ In 34 rp' ->
  question ActGetAssertion rp user = question ActGetAssertion rp' user' -> rp = rp' /\ user = user'.
Proof. exact login_unambiguous. Qed.
Print Assumptions C75_no_quotes_partial.

(* and only "y" or "yes" is taken for consent. *)
Theorem C75_answer : forall line, answer line = true <-> says_yes line.
Proof. exact answer_yes. Qed.
Print Assumptions C75_answer.

Example C75_example : answer (str " YeS" ++ [13; 10]) = true /\ answer [10] = false /\ answer (str "yep") = false /\
  mentions (question ActU2FRegister [] []) (str "use") /\
  mentions (question ActU2FAuthenticate [] []) (str "registration").
Proof.
  split; [vm_compute; reflexivity|]. split; [vm_compute; reflexivity|]. split; [vm_compute; reflexivity|].
  split; [exists (str "Approve "), (str " of U2F device (Y/n)?")|exists (str "Approve "), (str " of U2F device (Y/n)?")];
  vm_compute; reflexivity.
Qed.

(* ---------------------------------------------------------------- C76 *)
(* `pin set --pin text` sets the PIN typed or refuses. *)
Definition C76_full : Prop := forall E w w' text, env_ok E -> client_ok E (w_client w) ->
  pin_command E text w = (w', Ok true) -> cl_hash (w_client w') = Some (firstn 16 (sha256 (e_C E) text)).

(* It does for numbers of 4 to 18 digits that do not start with 0, *)
Theorem C76_plain_partial : forall E w w' r text, env_ok E -> client_ok E (w_client w) ->
  plain_number text -> 4 <= len text <= 18 -> pin_command E text w = (w', r) ->
  r = Ok true /\ exists d, w_client w' = set_hash (w_client w) (Some (firstn 16 (sha256 (e_C E) text))) /\
    w_trace w' = w_trace w ++ [EvSave d] /\ stored E d (w_client w').
Proof. exact pin_command_plain. Qed.
Print Assumptions C76_plain_partial.

(* and a refusal changes nothing, *)
Theorem C76_refused : forall E w w' text, pin_command E text w = (w', Ok false) -> w' = w.
Proof. exact pin_command_refused. Qed.
Print Assumptions C76_refused.

(* but "012345" is read as octal and sets the PIN "5349". *)
Theorem C76_octal_refuted : ~ C76_full.
Proof.
  intro H. specialize (H (toyE true) two (fst (pin_command (toyE true) (str "012345") two)) (str "012345")
    (toyE_ok true) (two_ok true)).
  assert (X : snd (pin_command (toyE true) (str "012345") two) = Ok true) by (vm_compute; reflexivity).
  rewrite <- X in H. specialize (H (surjective_pairing _)). vm_compute in H. discriminate H.
Qed.
Print Assumptions C76_octal_refuted.

(* so does every text of a 0 and digits up to 7: it is the same as the number in decimal. *)
Theorem C76_octal : forall E w ds text, Forall (fun b => 48 <= b <= 55) ds -> plain_number text ->
  value 8 ds = value 10 text -> pin_command E (48 :: ds) w = pin_command E text w.
Proof. exact pin_command_octal. Qed.
Print Assumptions C76_octal.

(* A negative number is refused. *)
Theorem C76_negative : forall E w text, pin_command E (45 :: text) w = (w, Ok false).
Proof. exact pin_command_negative. Qed.
Print Assumptions C76_negative.

Example C76_octal_example : Forall (fun b => 48 <= b <= 55) (str "12345") /\ value 8 (str "12345") = value 10 (str "5349").
Proof. split; [repeat constructor; discriminate|reflexivity]. Qed.

Example C76_example : plain_number (str "123456") /\ 4 <= len (str "123456") <= 18 /\
  snd (pin_command (toyE true) (str "123456") two) = Ok true /\
  snd (pin_command (toyE true) (str "123") two) = Ok false /\
  snd (pin_command (toyE true) (str "-12345") two) = Ok false /\
  cl_hash (w_client (fst (pin_command (toyE true) (str "012345") two))) =
  cl_hash (w_client (fst (pin_command (toyE true) (str "5349") two))).
Proof.
  split; [split; [apply Forall_forall; intros b I; vm_compute in I; repeat (destruct I as [<-|I]; [split; discriminate|]); destruct I|discriminate]|].
  split; [vm_compute; split; discriminate|]. split; [vm_compute; reflexivity|]. split; [vm_compute; reflexivity|].
  split; [vm_compute; reflexivity|]. vm_compute. reflexivity.
Qed.

(* ---------------------------------------------------------------- C77 *)
(* The list command shows every identity with the first eight digits of its id. *)
Theorem C77_list : forall E w, client_ok E (w_client w) ->
  exists l, list_command w = (w, Ok l) /\
    Forall2 (fun s x => exists h r, hex_text (cs_id s) (h ++ r) /\ len h = 8 /\
                          x = (h, us_name (cs_user s), rp_name (cs_rp s))) (cl_vault (w_client w)) l.
Proof. exact list_command_ok. Qed.
Print Assumptions C77_list.

Example C77_example : client_ok (toyE true) (w_client two) /\
  exists x y, list_command two = (two, Ok [x; y]) /\ fst (fst x) = str "00000000".
Proof.
  split; [apply two_ok|]. eexists _, _. split; [vm_compute; reflexivity|reflexivity].
Qed.
