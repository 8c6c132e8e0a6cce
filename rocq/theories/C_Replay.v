(* Requests that are recorded and sent again (C159). *)
From Verif Require Import Base M_Str M_Cbor M_Crypto M_Cose M_State M_Client M_Ctap M_U2f M_History.
From Verif Require Import S_Crypto S_Cbor S_Cose S_State S_Client S_Ctap S_CtapReq S_Pin S_Secret S_Replay.
From Verif Require Import P_Crypto P_Client P_Toy P_Secret P_Replay C_History C_Secret.

(* ---------------------------------------------------------------- C159 *)
(* What can be said for the device: a request for the PIN token that is sent again, as long as the PIN
   is not changed and the device not restarted, gets the same bytes as before, and nothing changes
   but the number of guesses left. *)
Theorem C159_same_reply_partial : forall E m w w1 r v, asks_token m -> ctap_handle E m w = (w1, Ok (0 :: r)) ->
  same_session (w_client w) (w_client v) -> (0 < cl_retries (w_client v) <= 8)%Z ->
  ctap_handle E m v = (with_guesses v 8, Ok (0 :: r)).
Proof. intros E m w w1 r v A H S R. exact (replayed E m w w1 0 r v A H (or_introl eq_refl) S R). Qed.
Print Assumptions C159_same_reply_partial.

(* But that number starts again from eight: the key agreement key stays the same after a wrong PIN
   (CTAP 2.0, 5.5.7 asks for a new one), so that a recorded request is good for ever.  Whoever has
   one can guess any number of times. *)
Theorem C159_guesses_refuted : forall E m w w1 r gs, asks_token m -> ctap_handle E m w = (w1, Ok (0 :: r)) ->
  Forall (fun g => asks_token g /\ snd (ctap_handle E g w) = Ok [49]) gs ->
  talk E (flat_map (fun g => [ICtap g; ICtap m]) gs) w1 =
    (flat_map (fun _ => [Ok (OBytes [49]); Ok (OBytes (0 :: r))]) gs, w1) /\
  cl_retries (w_client w1) = 8%Z.
Proof. exact no_limit. Qed.
Print Assumptions C159_guesses_refuted.

(* The owner asks for a token; the request is recorded. *)
Definition recorded : bytes := msg_token far pin1.
Definition owner : list input := [ICtap recorded].

Lemma recorded_asks : asks_token recorded.
Proof.
  unfold asks_token. exists (tl recorded). destruct (unmarshal dec_cp (tl recorded)) as [a|] eqn:U; [|vm_compute in U; discriminate].
  exists a. split; [vm_compute; reflexivity|]. split; [reflexivity|].
  assert (Q : option_map pn_sub (unmarshal dec_cp (tl recorded)) = Some 5) by (vm_compute; reflexivity).
  rewrite U in Q. cbn in Q. congruence.
Qed.

Lemma guess_asks : asks_token (msg_token far pin3).
Proof.
  unfold asks_token. exists (tl (msg_token far pin3)). destruct (unmarshal dec_cp (tl (msg_token far pin3))) as [a|] eqn:U; [|vm_compute in U; discriminate].
  exists a. split; [vm_compute; reflexivity|]. split; [reflexivity|].
  assert (Q : option_map pn_sub (unmarshal dec_cp (tl (msg_token far pin3))) = Some 5) by (vm_compute; reflexivity).
  rewrite U in Q. cbn in Q. congruence.
Qed.

Example C159_applies : asks_token recorded /\ exists r, snd (ctap_handle (toyE true) recorded devP1) = Ok (0 :: r) /\ len r = 19 /\
  Forall (fun g => asks_token g /\ snd (ctap_handle (toyE true) g devP1) = Ok [49]) (repeat (msg_token far pin3) 9) /\
  (* while eight guesses end it without the recorded request *)
  map (fun o => match o with Panic => true | _ => false end)
    (fst (talk (toyE true) (repeat (ICtap (msg_token far pin3)) 9) devP1)) = repeat false 8 ++ [true].
Proof.
  split; [exact recorded_asks|]. eexists. split; [vm_compute; reflexivity|]. split; [vm_compute; reflexivity|]. split.
  - apply Forall_forall. intros g G. apply repeat_spec in G as ->. split; [exact guess_asks|vm_compute; reflexivity].
  - vm_compute. reflexivity.
Qed.

Theorem C159_refuted : ~ C159_claim.
Proof.
  intros H.
  specialize (H (toyE true) owner (flat_map (fun g => [ICtap g; ICtap recorded]) (repeat (msg_token far pin3) 9)) devP1 (toyE_ok true)).
  assert (O : client_ok (toyE true) (w_client devP1)).
  { apply with_pin_ok; [apply dev_ok|apply wfbb_iff| |apply wfbb_iff|]; vm_compute; reflexivity. }
  specialize (H O).
  assert (Q : wrong_pins (fst (talk (toyE true) (flat_map (fun g => [ICtap g; ICtap recorded]) (repeat (msg_token far pin3) 9))
     (snd (talk (toyE true) owner devP1)))) = 9%nat) by (vm_compute; reflexivity).
  rewrite Q in H. apply (Nat.nle_succ_diag_l 8). apply H.
  intros i I. apply in_flat_map in I as (g & G & I). apply repeat_spec in G as ->.
  destruct I as [<-|[<-|[]]]; [right|left; left; reflexivity].
  exists (msg_token far pin3). split; [reflexivity|]. split; [exact guess_asks|vm_compute; reflexivity].
Qed.
Print Assumptions C159_refuted.
