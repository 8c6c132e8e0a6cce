(* Properties over whole histories of the device: C31, C32, C34, C39, C49, C51 and C71..C74.
   A history is any sequence of starts, requests, panics and crashes (M_History); [fresh] says
   that the random source has not repeated a 16-byte draw. *)
From Verif Require Import Base M_Cbor M_Crypto M_Cose M_State M_Client M_Ctap M_U2f M_History M_Race.
From Verif Require Import S_Crypto S_Cbor S_Cose S_State S_Client S_Ctap S_CtapReq S_Pin S_U2f S_History.
From Verif Require Import P_Crypto P_Client P_Ctap2 P_History P_History2 P_History3 P_Toy P_ToyHist C_U2f.

(* ------------------------------------------------------------------ *)
(* A history used by the examples: two registrations, two assertions, a crash, a restart. *)

Definition P0 : params := toyP false.
Definition out (h : list entry) (k : nat) : bytes :=
  match nth_error h k with Some (HDone _ (OBytes r)) => r | _ => [] end.
Definition hist (l : list move) : list entry := match played true l with Some (h, _, _) => h | None => [] end.
Definition last_up (l : list move) : bool := match played true l with Some (_, u, _) => u | None => false end.
Definition last_world (l : list move) : world := match played true l with Some (_, _, w) => w | None => blank end.

Lemma hist_ok l h : match played true l with Some _ => true | None => false end = true -> hist l = h ->
  starts_ok (toyE true) h -> history (toyE true) h (last_up l) (last_world l).
Proof.
  unfold hist, last_up, last_world, played. intros X Q ST.
  destruct (play (toyE true) l false blank) as [[[h' u] w]|] eqn:P; [|discriminate]. subst h'.
  apply (play_history (toyE true) l (toyE_ok true) [] false blank h u w); auto. apply (H_new (toyE true)).
Qed.

Lemma starts_toy h : Forall (fun e => match e with HStart p | HStartFailed p => p = toyP false \/ p = toyP true | _ => True end) h ->
  starts_ok (toyE true) h.
Proof.
  rewrite Forall_forall. intros H p [I|I]; destruct (H _ I) as [-> | ->]; apply toyP_ok.
Qed.

Ltac toy_starts := apply starts_toy; repeat (apply Forall_cons; [first [exact I|left; reflexivity|right; reflexivity]|]); apply Forall_nil.

Definition mcA := ICtap (msg_mc rpA None).
Definition mcB := ICtap (msg_mc rpB None).
Definition gaA := ICtap (msg_ga rpA None None None).
Definition gaB := ICtap (msg_ga rpB None None None).

Definition script1 : list move :=
  [MvStart P0; MvDo mcA; MvDo mcB; MvDo gaA; MvDo gaA; MvCrash gaB 1; MvStart P0; MvDo gaB].
Definition hist1 : list entry := Eval vm_compute in hist script1.
Definition r1A : bytes := Eval vm_compute in out hist1 1.
Definition r1B : bytes := Eval vm_compute in out hist1 2.
Definition r1a : bytes := Eval vm_compute in out hist1 3.
Definition r1b : bytes := Eval vm_compute in out hist1 4.
Definition r1c : bytes := Eval vm_compute in out hist1 7.

Lemma hist1_is : hist script1 = [HStart P0; HDone mcA (OBytes r1A); HDone mcB (OBytes r1B); HDone gaA (OBytes r1a);
  HDone gaA (OBytes r1b); HCrash gaB; HStart P0; HDone gaB (OBytes r1c)].
Proof. vm_compute. reflexivity. Qed.

Definition h1list : list entry := [HStart P0; HDone mcA (OBytes r1A); HDone mcB (OBytes r1B); HDone gaA (OBytes r1a);
  HDone gaA (OBytes r1b); HCrash gaB; HStart P0; HDone gaB (OBytes r1c)].

Lemma hist1_ok : history (toyE true) h1list true (last_world script1) /\ starts_ok (toyE true) h1list /\
  fresh (toyE true) (last_world script1) /\ len h1list < 4294967296.
Proof.
  assert (ST : starts_ok (toyE true) h1list) by (unfold h1list; toy_starts).
  split; [|split; [assumption|split; [|reflexivity]]].
  - replace true with (last_up script1) at 2 by (vm_compute; reflexivity).
    apply hist_ok; [vm_compute; reflexivity|apply hist1_is|assumption].
  - apply toy_fresh. vm_compute. reflexivity.
Qed.

Definition idA : bytes := Eval vm_compute in match read_reg r1A with Some (i, _, _) => i | None => [] end.
Definition xA : N := Eval vm_compute in match read_reg r1A with Some (_, x, _) => x | None => 0 end.
Definition yA : N := Eval vm_compute in match read_reg r1A with Some (_, _, y) => y | None => 0 end.

Lemma regA : registered r1A idA xA yA.
Proof. apply read_reg_ok. vm_compute. reflexivity. Qed.

(* ---------------------------------------------------------------- C31 *)
Definition C31_full : Prop := forall E h1 d1 r1 h2 d2 r2 h3 up w id x y n a rp, env_ok E ->
  let h := h1 ++ HDone (ICtap (1 :: d1)) (OBytes r1) :: h2 ++ HDone (ICtap (2 :: d2)) (OBytes r2) :: h3 in
  history E h up w -> starts_ok E h -> fresh E w -> len h < 4294967296 ->
  registered r1 id x y -> unmarshal dec_mc d1 = Some a -> mc_rp a = Some rp -> asserted r2 id n ->
  exists g, unmarshal dec_ga d2 = Some g /\ ga_rp g = rp_id rp.

(* Within one process: the credential was registered for the RP that asks. *)
Theorem C31_scoped_partial : forall E h1 d1 r1 h2 d2 r2 h3 up w id x y n a rp, env_ok E ->
  let h := h1 ++ HDone (ICtap (1 :: d1)) (OBytes r1) :: h2 ++ HDone (ICtap (2 :: d2)) (OBytes r2) :: h3 in
  history E h up w -> starts_ok E h -> fresh E w -> len h < 4294967296 -> no_start h2 ->
  registered r1 id x y -> unmarshal dec_mc d1 = Some a -> mc_rp a = Some rp -> asserted r2 id n ->
  exists g, unmarshal dec_ga d2 = Some g /\ ga_rp g = rp_id rp.
Proof. exact scoped. Qed.
Print Assumptions C31_scoped_partial.

(* After a restart the credential of one relying party signs for another. *)
Theorem C31_restart_refuted : ~ C31_full.
Proof.
  intro H. destruct hist1_ok as (A & B & C & D). unfold h1list in A, B, D.
  assert (X : exists a, unmarshal dec_mc (tl (msg_mc rpA None)) = Some a /\ mc_rp a = Some {| rp_id := rpA; rp_name := [65; 66] |}).
  { eexists. split; [vm_compute; reflexivity|reflexivity]. }
  destruct X as (a & U1 & RP).
  destruct (H (toyE true) [HStart P0] (tl (msg_mc rpA None)) r1A
    [HDone mcB (OBytes r1B); HDone gaA (OBytes r1a); HDone gaA (OBytes r1b); HCrash gaB; HStart P0]
    (tl (msg_ga rpB None None None)) r1c [] true (last_world script1) idA xA yA 3 a _
    (toyE_ok true) A B C D regA U1 RP) as (g & U & Q).
  - apply read_ga_ok. vm_compute. reflexivity.
  - vm_compute in U. injection U as <-. vm_compute in Q. discriminate Q.
Qed.
Print Assumptions C31_restart_refuted.

(* In every history: the allow list is obeyed, *)
Theorem C31_allow_list : forall E h1 d2 r2 h3 up w id n, env_ok E ->
  let h := h1 ++ HDone (ICtap (2 :: d2)) (OBytes r2) :: h3 in
  history E h up w -> starts_ok E h -> fresh E w -> len h < 4294967296 -> asserted r2 id n ->
  exists g, unmarshal dec_ga d2 = Some g /\
    match ga_allow g with None => True | Some l => exists d, In d l /\ or_nil (de_id d) = id end.
Proof. exact allow_respected. Qed.
Print Assumptions C31_allow_list.

(* only a relying party for which some registration was requested before gets an assertion, *)
Theorem C31_registered_before : forall E h1 d2 r2 h3 up w id n, env_ok E ->
  let h := h1 ++ HDone (ICtap (2 :: d2)) (OBytes r2) :: h3 in
  history E h up w -> starts_ok E h -> fresh E w -> len h < 4294967296 -> asserted r2 id n ->
  exists g e d a rp, unmarshal dec_ga d2 = Some g /\ In e h1 /\ input_of e = Some (ICtap (1 :: d)) /\
    unmarshal dec_mc d = Some a /\ mc_rp a = Some rp /\ rp_id rp = ga_rp g.
Proof. exact asserts_for_registered. Qed.
Print Assumptions C31_registered_before.

(* and with no suitable credential nothing changes. *)
Theorem C31_no_credentials : forall E w data w' r a, env_ok E -> client_ok E (w_client w) -> wfb data ->
  ctap_handle E (2 :: data) w = (w', r) -> unmarshal dec_ga data = Some a ->
  (cl_pin (w_client w) = true -> ga_auth a = None \/ ga_verified (e_C E) (w_client w) a) ->
  (forall s, In s (cl_vault (w_client w)) -> ~ allowed (ga_rp a) (ga_allow a) s) ->
  w' = w /\ r = Ok [46].
Proof. exact nothing_to_assert. Qed.
Print Assumptions C31_no_credentials.

(* Two registrations and two assertions in one process. *)
Example C31_example : asserted r1a idA 1 /\ asserted r1b idA 2 /\ registered r1A idA xA yA /\
  no_start [HDone mcB (OBytes r1B); HDone gaA (OBytes r1a)] /\
  snd (ctap_handle (toyE true) (msg_ga rpB None None None) (dev false)) = Ok [46] /\
  (exists a, unmarshal dec_ga (tl (msg_ga rpB None None None)) = Some a /\ ga_auth a = None).
Proof.
  split; [apply read_ga_ok; vm_compute; reflexivity|]. split; [apply read_ga_ok; vm_compute; reflexivity|].
  split; [exact regA|]. split; [intros p [X|[X|[]]]; discriminate X|]. split; [vm_compute; reflexivity|].
  eexists. split; [vm_compute; reflexivity|reflexivity].
Qed.

(* ---------------------------------------------------------------- C32 *)
Theorem C32_assertion_verifies : forall E h1 d1 r1 h2 d2 r2 h3 up w id x y auth sig, env_ok E ->
  let h := h1 ++ HDone (ICtap (1 :: d1)) (OBytes r1) :: h2 ++ HDone (ICtap (2 :: d2)) (OBytes r2) :: h3 in
  history E h up w -> starts_ok E h -> fresh E w -> len h < 4294967296 ->
  registered r1 id x y -> response (assertion_doc id auth sig) r2 ->
  exists a ad w2 s, unmarshal dec_ga d2 = Some a /\
    ecdsa_verify (e_C E) (x, y) (sha256 (e_C E) (auth ++ or_nil (ga_hash a))) sig = true /\
    has_auth_data auth ad /\ ad_rp_hash ad = sha256 (e_C E) (ga_rp a) /\
    history E (h1 ++ HDone (ICtap (1 :: d1)) (OBytes r1) :: h2 ++ [HDone (ICtap (2 :: d2)) (OBytes r2)]) true w2 /\
    In s (cl_vault (w_client w2)) /\ cs_id s = id /\ ad_count ad = Z.to_N (cs_ctr s mod 4294967296).
Proof. exact assertion_verifies. Qed.
Print Assumptions C32_assertion_verifies.

(* Registration, then an assertion before and one after a crash and restart. *)
Example C32_example : history (toyE true) h1list true (last_world script1) /\ fresh (toyE true) (last_world script1) /\
  registered r1A idA xA yA /\ (exists auth sig, response (assertion_doc idA auth sig) r1a) /\
  (exists auth sig, response (assertion_doc idA auth sig) r1c).
Proof.
  destruct hist1_ok as (A & _ & B & _). split; [exact A|]. split; [exact B|]. split; [exact regA|]. split.
  - destruct (read_ga_ok r1a idA 1) as (auth & sig & ad & X & _); [vm_compute; reflexivity|eauto].
  - destruct (read_ga_ok r1c idA 3) as (auth & sig & ad & X & _); [vm_compute; reflexivity|eauto].
Qed.

(* ---------------------------------------------------------------- C34 *)
Theorem C34_counters_increase : forall E h1 d1 r1 h2 d2 r2 h3 up w id n1 n2, env_ok E ->
  history E (h1 ++ HDone (ICtap (2 :: d1)) (OBytes r1) :: h2 ++ HDone (ICtap (2 :: d2)) (OBytes r2) :: h3) up w ->
  let h := h1 ++ HDone (ICtap (2 :: d1)) (OBytes r1) :: h2 ++ HDone (ICtap (2 :: d2)) (OBytes r2) :: h3 in
  starts_ok E h -> fresh E w -> len h < 4294967296 ->
  asserted r1 id n1 -> asserted r2 id n2 -> n1 < n2.
Proof. exact counters_increase. Qed.
Print Assumptions C34_counters_increase.

(* The same credential before and after the crash: counters 1, 2 and 3. *)
Example C34_example : history (toyE true) h1list true (last_world script1) /\ starts_ok (toyE true) h1list /\
  fresh (toyE true) (last_world script1) /\ asserted r1a idA 1 /\ asserted r1b idA 2 /\ asserted r1c idA 3.
Proof.
  destruct hist1_ok as (A & B & C & _). do 3 (split; [assumption|]).
  split; [|split]; apply read_ga_ok; vm_compute; reflexivity.
Qed.

(* ---------------------------------------------------------------- C39 *)
Definition C39_full : Prop := forall E h1 h2 up w, env_ok E -> history E (h1 ++ h2) up w -> starts_ok E (h1 ++ h2) ->
  (forall e, In e h2 -> ~ right_pin e) -> (wrong_count h2 <= 8)%Z.

(* While the process lives at most eight wrong PINs are evaluated between right ones. *)
Theorem C39_guesses_limited_partial : forall E h1 h2 up w, env_ok E -> history E (h1 ++ h2) up w -> starts_ok E (h1 ++ h2) ->
  no_start h2 -> (forall e, In e h2 -> ~ right_pin e) ->
  (wrong_count h2 <= 8)%Z /\ (up = true -> wrong_count h2 + cl_retries (w_client w) <= 8)%Z.
Proof. exact guesses_limited. Qed.
Print Assumptions C39_guesses_limited_partial.

(* A restart gives eight more. *)
Definition guess := ICtap (msg_token far pin2).
Definition setpin := ICtap (msg_set far pin1).
Definition guesses (k : nat) : list move := repeat (MvDo guess) k.
Definition script2 : list move :=
  MvStart (toyP true) :: MvDo setpin :: guesses 8 ++ MvCrash gaA 0 :: MvStart (toyP true) :: guesses 8.
Definition wrong : entry := HDone guess (OBytes [49]).
Definition h2tail : list entry := repeat wrong 8 ++ HCrash gaA :: HStart (toyP true) :: repeat wrong 8.

Lemma hist2_is : hist script2 = [HStart (toyP true); HDone setpin (OBytes [0])] ++ h2tail.
Proof. vm_compute. reflexivity. Qed.

Theorem C39_restart_refuted : ~ C39_full.
Proof.
  intro H. specialize (H (toyE true) [HStart (toyP true); HDone setpin (OBytes [0])] h2tail _ (last_world script2) (toyE_ok true)
    (hist_ok script2 _ ltac:(vm_compute; reflexivity) hist2_is ltac:(cbn [app h2tail repeat]; toy_starts))
    ltac:(cbn [app h2tail repeat]; toy_starts)).
  assert (X : (wrong_count h2tail <= 8)%Z) by (apply H, no_right_pin; vm_compute; reflexivity).
  vm_compute in X. now apply X.
Qed.
Print Assumptions C39_restart_refuted.

(* PIN_BLOCKED (50) is never answered; a device with no guesses left panics instead,
   whatever the guess, *)
Theorem C39_blocked_never_said : forall E h up w, env_ok E -> history E h up w -> starts_ok E h ->
  forall data, ~ In (HDone (ICtap (6 :: data)) (OBytes [50])) h.
Proof. exact never_blocked. Qed.
Print Assumptions C39_blocked_never_said.

Theorem C39_exhausted_crashes : forall E h1 h2 w data a, env_ok E -> history E (h1 ++ h2) true w -> starts_ok E (h1 ++ h2) ->
  no_start h2 -> (forall e, In e h2 -> ~ right_pin e) -> wrong_count h2 = 8%Z ->
  cl_pin (w_client w) = true -> wfb data -> unmarshal dec_cp data = Some a -> pn_protocol a = 1 ->
  pn_sub a = 5 -> pn_key a <> None -> (forall k, pn_key a = Some k -> e2_x k <> None) -> pn_hash a <> None ->
  ctap_handle E (6 :: data) w = (w, Panic).
Proof. exact exhausted_crashes. Qed.
Print Assumptions C39_exhausted_crashes.

(* Eight wrong guesses in one process, then the right PIN: a panic. *)
Definition script3 : list move := MvStart (toyP true) :: MvDo setpin :: guesses 8 ++ [MvDo (ICtap (msg_token far pin1))].
Example C39_example : hist script3 = [HStart (toyP true); HDone setpin (OBytes [0])] ++ repeat wrong 8 ++
    [HPanic (ICtap (msg_token far pin1))] /\
  wrong_count (repeat wrong 8) = 8%Z /\ (forall e, In e (repeat wrong 8) -> ~ right_pin e) /\
  right_pin (HDone setpin (OBytes [0])).
Proof.
  split; [vm_compute; reflexivity|]. split; [reflexivity|].
  split; [apply no_right_pin; vm_compute; reflexivity|].
  exists (tl (msg_set far pin1)). eexists. eexists. split; [reflexivity|]. split; [vm_compute; reflexivity|].
  left. split; [left; reflexivity|]. now exists [].
Qed.

(* ---------------------------------------------------------------- C49 *)
(* After any history in which the device is always started with the same encryption key. *)
Theorem C49_handles_last : forall E k h1 msg1 r h2 w cla1 p1 q1 chal1 app le1 pk hd cert sig cla control p2 chal le msg,
  env_ok E -> let h := h1 ++ HDone (IU2f msg1) (OBytes r) :: h2 in
  history E h true w -> starts_ok E h -> (forall p, In (HStart p) h -> pa_key p = k) ->
  len chal1 = 32 -> len app = 32 -> len chal = 32 -> len pk = 65 -> wfb msg ->
  apdu cla1 1 p1 q1 (chal1 ++ app) le1 msg1 -> r = registration_reply pk hd cert sig ->
  apdu cla 2 control p2 (authentication_data chal app hd) le msg ->
  (control = 8 \/ (control = 3 /\ e_approve E (w_tick w) ActU2FAuthenticate [] [] = true)) ->
  exists w' x y n sig2, encodes_point pk (x, y) /\ x < 2 ^ 256 /\ y < 2 ^ 256 /\
    handle E (IU2f msg) w = (w', Ok (OBytes (authentication_reply 1 n sig2))) /\
    ecdsa_verify (e_C E) (x, y) (sha256 (e_C E) (authentication_signed app 1 n chal)) sig2 = true.
Proof. exact u2f_handles_last. Qed.
Print Assumptions C49_handles_last.

(* ---------------------------------------------------------------- C51 *)
Definition C51_full : Prop := forall E h1 e1 h2 e2 h3 up w n1 n2, env_ok E ->
  let h := h1 ++ e1 :: h2 ++ e2 :: h3 in
  history E h up w -> starts_ok E h -> len h < 4294967295 -> u2f_counter e1 n1 -> u2f_counter e2 n2 -> n1 < n2.

(* In one process, one request at a time. *)
Theorem C51_counters_increase_partial : forall E h1 e1 h2 e2 h3 up w n1 n2, env_ok E ->
  let h := h1 ++ e1 :: h2 ++ e2 :: h3 in
  history E h up w -> starts_ok E h -> no_start h2 -> len h < 4294967295 ->
  u2f_counter e1 n1 -> u2f_counter e2 n2 -> n1 < n2.
Proof. exact u2f_counters_increase. Qed.
Print Assumptions C51_counters_increase_partial.

(* The counter is not saved by U2F requests: after a restart it is handed out again. *)
Definition reg4 := IU2f (reg_msg chal1 appA).
Definition r4R : bytes := Eval vm_compute in out (hist [MvStart P0; MvDo reg4]) 1.
Definition handle4 : bytes := takeN 194 (dropN 67 r4R).
Definition auth4 := IU2f (auth_msg 3 chal2 appA handle4).
Definition script4 : list move := [MvStart P0; MvDo reg4; MvDo auth4; MvDo auth4; MvCrash gaA 0; MvStart P0; MvDo auth4].
Definition r4a : bytes := Eval vm_compute in out (hist script4) 2.
Definition r4b : bytes := Eval vm_compute in out (hist script4) 3.
Definition r4c : bytes := Eval vm_compute in out (hist script4) 6.
Definition h4list : list entry := [HStart P0; HDone reg4 (OBytes r4R); HDone auth4 (OBytes r4a); HDone auth4 (OBytes r4b);
  HCrash gaA; HStart P0; HDone auth4 (OBytes r4c)].

Lemma hist4_is : hist script4 = h4list.
Proof. vm_compute. reflexivity. Qed.

Lemma hist4_ok : history (toyE true) h4list true (last_world script4) /\ starts_ok (toyE true) h4list.
Proof.
  assert (ST : starts_ok (toyE true) h4list) by (unfold h4list; toy_starts).
  split; [|assumption]. replace true with (last_up script4) at 2 by (vm_compute; reflexivity).
  apply hist_ok; [vm_compute; reflexivity|apply hist4_is|assumption].
Qed.

Lemma counter4 r n : r = authentication_reply 1 n (takeN (len r - 7) (dropN 5 r)) -> n < 4294967296 ->
  u2f_counter (HDone auth4 (OBytes r)) n.
Proof. intros Q L. exists (auth_msg 3 chal2 appA handle4), r. eexists. eexists. repeat split; eauto. Qed.

Theorem C51_restart_refuted : ~ C51_full.
Proof.
  intro H. destruct hist4_ok as [A B].
  specialize (H (toyE true) [HStart P0; HDone reg4 (OBytes r4R)] (HDone auth4 (OBytes r4a))
    [HDone auth4 (OBytes r4b); HCrash gaA; HStart P0] (HDone auth4 (OBytes r4c)) [] true (last_world script4) 1 1
    (toyE_ok true) A B eq_refl).
  assert (X : 1 < 1) by (apply H; apply counter4; vm_compute; reflexivity). lia.
Qed.
Print Assumptions C51_restart_refuted.

(* Two requests at once may be given the same counter, *)
Theorem C51_concurrent_refuted : exists schedule s, race_run schedule (race_start 2 7) = Some s /\ rc_given s = [7; 7] /\
  rc_threads s = [A_done 7; A_done 7].
Proof. exists [0; 1; 0; 1; 0; 1]%nat. eexists. split; [reflexivity|]. split; reflexivity. Qed.
Print Assumptions C51_concurrent_refuted.

(* also when the counter itself advances twice; *)
Theorem C51_reloaded_refuted : exists schedule s, race_run schedule (race_start 2 7) = Some s /\ rc_given s = [7; 7] /\
  rc_ctr s = 9.
Proof. exists [0; 1; 1; 1; 0; 0]%nat. eexists. split; [reflexivity|]. split; reflexivity. Qed.
Print Assumptions C51_reloaded_refuted.

(* but no interleaving gives a value outside the range of the serial ones, *)
Theorem C51_range_partial : forall k n schedule s, n + N.of_nat k < 4294967296 ->
  race_run schedule (race_start k n) = Some s ->
  n <= rc_ctr s <= n + N.of_nat (length (rc_given s)) /\ Forall (fun v => n <= v < n + N.of_nat k) (rc_given s) /\
  (length (rc_given s) <= k)%nat.
Proof. exact race_range. Qed.
Print Assumptions C51_range_partial.

(* and none if each finishes before the next begins. *)
Theorem C51_serial_partial : forall order ts n g, NoDup order -> (forall i, In i order -> nth_error ts i = Some A_call) ->
  n + N.of_nat (length order) < 4294967296 ->
  exists ts', race_run (flat_map (fun i => [i; i; i]) order) (mk_race n ts g) =
    Some (mk_race (n + N.of_nat (length order)) ts' (g ++ map (fun k => n + N.of_nat k) (seq 0 (length order)))).
Proof. exact race_serial. Qed.
Print Assumptions C51_serial_partial.

Example C51_example : history (toyE true) h4list true (last_world script4) /\
  u2f_counter (HDone auth4 (OBytes r4a)) 1 /\ u2f_counter (HDone auth4 (OBytes r4b)) 2 /\
  apdu 0 1 0 0 (chal1 ++ appA) 0 (reg_msg chal1 appA) /\
  apdu 0 2 3 0 (authentication_data chal2 appA handle4) 0 (auth_msg 3 chal2 appA handle4) /\
  (exists pk cert sig, len pk = 65 /\ r4R = registration_reply pk handle4 cert sig).
Proof.
  split; [apply hist4_ok|]. split; [apply counter4; vm_compute; reflexivity|].
  split; [apply counter4; vm_compute; reflexivity|]. split; [apply C46_request|].
  split; [apply (Apdu3 0 2 3 0); vm_compute; auto|].
  exists (takeN 65 (dropN 1 r4R)), [48; 0], (takeN (len r4R - 265) (dropN 263 r4R)). split; vm_compute; reflexivity.
Qed.

(* ---------------------------------------------------------------- C71 *)
Theorem C71_deleted_gone : forall E h1 h2 d2 r2 h3 up w id n, env_ok E ->
  let h := h1 ++ HDone (IDelete id) (OBool true) :: h2 ++ HDone (ICtap (2 :: d2)) (OBytes r2) :: h3 in
  history E h up w -> starts_ok E h -> fresh E w -> len h < 4294967296 -> ~ asserted r2 id n.
Proof. exact deleted_gone. Qed.
Print Assumptions C71_deleted_gone.

(* Deleted, restarted, asked again: NO_CREDENTIALS. *)
Definition script5 : list move := [MvStart P0; MvDo mcA; MvDo gaA; MvDo (IDelete idA); MvCrash gaA 0; MvStart P0; MvDo gaA].
Example C71_example : hist script5 = [HStart P0; HDone mcA (OBytes r1A); HDone gaA (OBytes (out (hist script5) 2));
    HDone (IDelete idA) (OBool true); HCrash gaA; HStart P0; HDone gaA (OBytes [46])] /\
  asserted (out (hist script5) 2) idA 1.
Proof. split; [vm_compute; reflexivity|apply read_ga_ok; vm_compute; reflexivity]. Qed.

(* ---------------------------------------------------------------- C72 *)
Theorem C72_starts_succeed : forall E h up w p, env_ok E -> history E h up w -> starts_ok E h -> ~ In (HStartFailed p) h.
Proof. exact starts_succeed. Qed.
Print Assumptions C72_starts_succeed.
(* Histories with restarts: C32_example and C71_example. *)

(* ---------------------------------------------------------------- C73 *)
Theorem C73_pin_stays : forall E h1 pin h2 up w, env_ok E ->
  let h := h1 ++ HDone (ISetPin pin) OUnit :: h2 in
  history E h up w -> starts_ok E h ->
  (forall e i, In e h2 -> input_of e = Some i -> ~ may_change_pin i) ->
  (up = true -> cl_hash (w_client w) = Some (firstn 16 (sha256 (e_C E) pin))) /\
  exists c, saved_client E w c /\ cl_hash c = Some (firstn 16 (sha256 (e_C E) pin)).
Proof. exact pin_stays. Qed.
Print Assumptions C73_pin_stays.

Definition script6 : list move := [MvStart (toyP true); MvDo (ISetPin pin1); MvDo mcA; MvCrash gaA 0; MvStart (toyP true); MvDo guess].
Example C73_example : hist script6 = [HStart (toyP true); HDone (ISetPin pin1) OUnit; HDone mcA (OBytes [54]); HCrash gaA;
    HStart (toyP true); HDone guess (OBytes [49])] /\
  ~ may_change_pin mcA /\ ~ may_change_pin gaA /\ ~ may_change_pin guess.
Proof.
  split; [vm_compute; reflexivity|]. split; [intros (d & a & X & _); discriminate X|].
  split; [intros (d & a & X & _); discriminate X|]. intros (d & a & X & U & S). injection X as <-.
  vm_compute in U. injection U as <-. destruct S as [S|S]; discriminate S.
Qed.

(* ---------------------------------------------------------------- C74 *)
Theorem C74_credentials_stay : forall E h1 d1 r1 h2 up w id x y, env_ok E ->
  let h := h1 ++ HDone (ICtap (1 :: d1)) (OBytes r1) :: h2 in
  history E h up w -> starts_ok E h -> registered r1 id x y ->
  (forall e, In e h2 -> input_of e <> Some (IDelete id)) ->
  (up = true -> exists s, In s (cl_vault (w_client w)) /\ cs_id s = id /\ public_of (cs_key s) x y) /\
  exists c, saved_client E w c /\ exists s, In s (cl_vault c) /\ cs_id s = id /\ public_of (cs_key s) x y.
Proof. exact credentials_stay. Qed.
Print Assumptions C74_credentials_stay.

Example C74_example : history (toyE true) h1list true (last_world script1) /\ registered r1A idA xA yA /\
  length (cl_vault (w_client (last_world script1))) = 2%nat.
Proof. split; [apply hist1_ok|]. split; [exact regA|]. vm_compute. reflexivity. Qed.
