(* Properties C90..C94: the whole device with its goroutines, from the bytes on the connection to
   the authenticators and back, while several requests wait for the user. *)
From Verif Require Import Base M_Util M_Usb M_ReqBuf M_Usbip M_Hid M_Crypto M_Cose M_State M_Client M_Ctap M_U2f M_History
  M_Overlap M_Device M_Threads S_ReqBuf S_Usbip S_UsbipSys S_Hid S_Client S_Ctap S_History S_Device S_Overlap S_Threads P_Hid4 P_Client
  P_Toy P_ToyHist P_Device3 P_Device4 P_Device5 C_Usbip P_History P_History2 C_History C_Device
  P_Threads1 P_Threads2 P_Threads4 P_Threads5.
From Coq Require Import Sorted Permutation.

(* ---- a session used in the examples: import, 24 IN transfers, two INITs, a MakeCredential on
   channel 1, a GetInfo on channel 2, a CANCEL on channel 1, the beginning of a MakeCredential on
   channel 2 and a CANCEL there. *)
Definition cancel_packet (ch : N) : bytes := le 4 ch ++ [0x91; 0; 0] ++ zeros 57.
Definition tsession_out : list bytes :=
  [init_packet; init_packet] ++ host_send 1 0x90 request ++ host_send 2 0x90 [4] ++ [cancel_packet 1] ++
  firstn 1 (host_send 2 0x90 request) ++ [cancel_packet 2].
Definition tsession : list bytes :=
  map message_bytes (demo_import :: map (fun i => IN (N.of_nat i)) (seq 1 24) ++
    map (fun x => OUT (100 + N.of_nat (fst x)) (snd x)) (combine (seq 0 (length tsession_out)) tsession_out)).
Definition send (packets : nat) : list tlabel := TGrab 0 :: concat (repeat [TPut 0; TRun 0] packets).
(* until channel 1 waits for the user, and a goroutine waits to send the answer on channel 2 *)
Definition tlabels1 : list tlabel :=
  [TRead; TWrite] ++ repeat TRead 24 ++ concat (repeat [TRead; TWrite] (length tsession_out)) ++
  [THandle 0] ++ send 1 ++ [THandle 1] ++ send 1 ++ [THandle 2; THandle 3; THandle 4].
(* the answer on channel 2, a keepalive, a request that is cancelled half way *)
Definition tlabels2 : list tlabel := [TTick 0; TGrab 1; TPut 0; TRun 0] ++ send 1 ++ [THandle 6; THandle 7].
(* the user says yes; the CANCEL on channel 1 is only seen now *)
Definition tlabels3 : list tlabel := [TAnswer 0] ++ send 4 ++ [THandle 5].
Definition tplay (ls : list tlabel) : option tmoved := tdev_run (toyE true) (tdev_init tsession w0) ls.
Definition tstate (ls : list tlabel) : tdev := match tplay ls with Some (TRunning d) => d | _ => tdev_init [] w0 end.
Definition d1 : tdev := tstate tlabels1.
Definition d2 : tdev := tstate (tlabels1 ++ tlabels2).
Definition d3 : tdev := tstate (tlabels1 ++ tlabels2 ++ tlabels3).

Lemma tsession_wfb : Forall wfb tsession.
Proof.
  assert (forallb wfbb tsession = true) as H by (vm_compute; reflexivity).
  rewrite forallb_forall in H. apply Forall_forall. intros x Hx. now apply wfbb_iff, H.
Qed.
Lemma tlabels_ok : Forall tlabel_ok (tlabels1 ++ tlabels2 ++ tlabels3).
Proof. apply Forall_forall. intros l H. cbn in H. repeat destruct H as [<-|H]; try exact I; destruct H. Qed.
Lemma tlabels_ok1 : Forall tlabel_ok tlabels1.
Proof. apply Forall_forall. intros l H. cbn in H. repeat destruct H as [<-|H]; try exact I; destruct H. Qed.
Lemma tlife0 : tlife (toyE true) [P0] (TUp (tdev_init tsession w0)).
Proof. apply (T_start (toyE true) [] blank P0 w0); [apply (T_new (toyE true))|apply tsession_wfb|exact session_started]. Qed.
Lemma tlife1 : tlife (toyE true) [P0] (TUp d1).
Proof. apply (tlife_run _ _ _ _ _ tlife0 tlabels_ok1). vm_compute. reflexivity. Qed.
Lemma tlife3 : tlife (toyE true) [P0] (TUp d3).
Proof. apply (tlife_run _ _ _ _ _ tlife0 tlabels_ok). vm_compute. reflexivity. Qed.

(* ---------------------------------------------------------------- C90 *)
(* A message handled up to the authenticator, then the authenticator, then the packets: that is
   what the server of C01..C14 does with the message. *)
Theorem C90_front : forall (A : Type) (h : apps A) s a ka m, let o := hid_handle h s a ka m in
  match hid_front s m with
  | FKeep s' => o = mk_outcome s' a [] (Ok tt)
  | FSend _ s' ps => o = mk_outcome s' a ps (Ok tt)
  | FCall ch s' ctap reply q =>
    let ticks := if ctap : bool then concat (repeat (keepalive ch) ka) else [] in
    match (if ctap : bool then app_ctap h a q else app_u2f h a q) with
    | (a', Ok b) => o = mk_outcome s' a' (ticks ++ create_response_packets reply (if ctap then cmd_cbor else cmd_msg) b) (Ok tt)
    | (a', Panic) => o_app o = a' /\ o_res o = Panic
    end
  | FPanic => o_app o = a /\ o_res o = Panic
  end.
Proof. exact @front_handle. Qed.
Print Assumptions C90_front.

(* However the goroutines, the answers of the user, restarts and crashes fall, what the device did
   is a history of overlapping requests in the sense of C80..C87: started with the same parameters,
   waiting for the user with the same requests; its requests since the last start were assembled
   from what the host wrote, no more than it wrote packets; and every frame on the wire has a
   reason in it. *)
Theorem C90_history : forall E ps s, tlife E ps s -> exists h lo, ohistory E h lo (tworld_of s) /\ ostarts_of h = ps /\
  match s with
  | TDown _ => lo = None
  | TUp d =>
    let log := sy_log (td_sys d) in let now := osince_start h in
    (exists l, lo = Some l /\ map wt_input l = map th_input (td_waits d)) /\
    Forall (ocame_from (written_of log)) now /\
    (length (filter begins_request now) <= length (written_of log))%nat /\
    Forall (on_wire log (explained (written_of log) (S_Overlap.answers_in now))) (sy_out (td_sys d))
  end.
Proof. exact threads_history. Qed.
Print Assumptions C90_history.

(* In the session one request waits while another, later one is answered. *)
Example C90_example : tlife (toyE true) [P0] (TUp d1) /\ tlife (toyE true) [P0] (TUp d3) /\
  written_of (sy_log (td_sys d1)) = tsession_out /\ map th_input (td_waits d1) = [ICtap request] /\ map th_ch (td_waits d1) = [1] /\
  length (td_out d1) = 1%nat /\ td_taken d1 = [4; 3; 2; 1; 0]%nat /\
  td_waits d3 = [] /\ length (cl_vault (w_client (td_world d3))) = 1%nat /\ cl_vault (w_client (td_world d1)) = [].
Proof.
  split; [exact tlife1|]. split; [exact tlife3|]. do 7 (split; [vm_compute; reflexivity|]). vm_compute. reflexivity.
Qed.

(* ---------------------------------------------------------------- C91 *)
(* What the host reads on a channel is a sequence of whole messages, never mixed with one another;
   every answered request gets exactly one, and on a channel they come in the order of the
   requests.  Something is missing only while it is on its way. *)
Theorem C91_delivered : forall E ps d, tlife E ps (TUp d) ->
  exists h l turns, ohistory E h (Some l) (td_world d) /\ ostarts_of h = ps /\
  let now := osince_start h in
  Forall (reason (written_of (sy_log (td_sys d))) now) turns /\
  NoDup (numbers_of turns) /\ Permutation (numbers_of turns) (answered_requests now) /\
  (forall ch, StronglySorted lt (numbers_of (filter (sent_on ch) turns))) /\ reads_as d turns.
Proof. exact threads_deliver. Qed.
Print Assumptions C91_delivered.

(* The host reads a keepalive and the whole answer on channel 1, although the goroutine of channel 2
   sent in between. *)
Example C91_example : let log := sy_log (td_sys d3) in let out := sy_out (td_sys d3) in
  tlife (toyE true) [P0] (TUp d3) /\ NoDup (submit_seqs log) /\ reads_64 log /\
  td_out d3 = [] /\ td_turn d3 = None /\ rb_responses (in_buf (sy_in (td_sys d3))) = [] /\ in_flight (sy_in (td_sys d3)) = [] /\
  length (packets_read 1 log out) = 5%nat /\ length (packets_read 2 log out) = 1%nat /\
  host_await 1 (packets_read 1 log out) = Some (0x90, reply_bytes) /\
  exists info, host_await 2 (packets_read 2 log out) = Some (0x90, 0 :: info).
Proof.
  cbv zeta. split; [exact tlife3|].
  split; [vm_compute; repeat (apply NoDup_cons; [cbn; intuition discriminate|]); apply NoDup_nil|].
  split; [apply reads_64_check; vm_compute; reflexivity|].
  do 7 (split; [vm_compute; reflexivity|]). eexists. vm_compute. reflexivity.
Qed.

(* ---------------------------------------------------------------- C92 *)
(* The user can answer every waiting request at any time; and without any answer the device can
   send all it has to send, after which every message the host wrote can be handled, except on
   a channel whose request waits. *)
Theorem C92_never_stuck : forall E ps d, tlife E ps (TUp d) ->
  (forall k, (k < length (td_waits d))%nat -> exists r, tdev_step E d (TAnswer k) = Some r) /\
  exists ls d', tdev_run E d ls = Some (TRunning d') /\ Forall tdelivers ls /\ tlife E ps (TUp d') /\ tsame d d' /\
    td_out d' = [] /\ td_turn d' = None /\ in_flight (sy_in (td_sys d')) = [] /\ sy_pending (td_sys d') = None /\
    (rb_responses (in_buf (sy_in (td_sys d'))) = [] \/ rb_waiting (in_buf (sy_in (td_sys d'))) = []) /\
    forall i m, nth_error (written_of (sy_log (td_sys d))) i = Some m -> ~ In i (td_taken d) ->
      (forall x, In x (td_waits d) -> takeN 4 m <> le 4 (th_ch x)) -> exists r, tdev_step E d' (THandle i) = Some r.
Proof. exact threads_never_stuck. Qed.
Print Assumptions C92_never_stuck.

(* In d1 channel 1 waits for the user and channel 2 for its turn to send: message 6, on channel 2,
   cannot start; once the answer is sent it can. *)
Example C92_example : tlife (toyE true) [P0] (TUp d1) /\ ~ In 6%nat (td_taken d1) /\
  tdev_step (toyE true) d1 (THandle 6) = None /\
  (exists m, nth_error (written_of (sy_log (td_sys d1))) 6 = Some m /\ Forall (fun x => takeN 4 m <> le 4 (th_ch x)) (td_waits d1)) /\
  exists d, tdev_run (toyE true) d1 (send 1) = Some (TRunning d) /\ tdev_step (toyE true) d (THandle 6) <> None.
Proof.
  split; [exact tlife1|]. split; [vm_compute; intuition discriminate|]. split; [vm_compute; reflexivity|]. split.
  - eexists. split; [vm_compute; reflexivity|]. vm_compute. repeat constructor. discriminate.
  - eexists. split; [vm_compute; reflexivity|]. vm_compute. discriminate.
Qed.

(* ---------------------------------------------------------------- C93 *)
(* A CANCEL on the channel of a waiting request can be handled before the user answers. *)
Definition C93_full : Prop := forall E ps d x i rest, tlife E ps (TUp d) -> In x (td_waits d) -> ~ In i (td_taken d) ->
  nth_error (written_of (sy_log (td_sys d))) i = Some (le 4 (th_ch x) ++ 0x91 :: rest) ->
  exists ls d', Forall tlabel_ok ls /\ Forall no_answer ls /\ tdev_run E d ls = Some (TRunning d') /\ In i (td_taken d').

(* It cannot: whatever happens except an answer, the request waits and the CANCEL is not looked at. *)
Theorem C93_waits_on : forall E ps ls d d' x i m, tlife E ps (TUp d) -> Forall tlabel_ok ls -> Forall no_answer ls ->
  tdev_run E d ls = Some (TRunning d') -> In x (td_waits d) ->
  nth_error (written_of (sy_log (td_sys d))) i = Some m -> ~ In i (td_taken d) -> takeN 4 m = le 4 (th_ch x) ->
  still x (td_waits d') /\ ~ In i (td_taken d').
Proof. exact channel_waits. Qed.
Print Assumptions C93_waits_on.

Theorem C93_cancel_refuted : ~ C93_full.
Proof.
  intro H. destruct (td_waits d1) as [|x l] eqn:W; [vm_compute in W; discriminate W|].
  assert (X : th_ch x = 1) by (vm_compute in W; injection W as <- _; reflexivity).
  assert (N5 : ~ In 5%nat (td_taken d1)) by (vm_compute; intuition discriminate).
  assert (M : nth_error (written_of (sy_log (td_sys d1))) 5 = Some (le 4 1 ++ 0x91 :: zeros 59)) by (vm_compute; reflexivity).
  destruct (H (toyE true) [P0] d1 x 5%nat (zeros 59) tlife1) as (ls & d' & A & B & C & D).
  - rewrite W. now left.
  - exact N5.
  - rewrite X. exact M.
  - refine (proj2 (C93_waits_on _ _ ls d1 d' x 5%nat _ tlife1 A B C _ M N5 _) D); [rewrite W; now left|]. rewrite X. reflexivity.
Qed.
Print Assumptions C93_cancel_refuted.

(* A CANCEL does stop a request that is not complete, and nothing else changes. *)
Theorem C93_incomplete_partial : forall E ps d i ch cur rest, tlife E ps (TUp d) -> ~ In i (td_taken d) ->
  nth_error (written_of (sy_log (td_sys d))) i = Some (le 4 ch ++ 0x91 :: rest) -> ch < 4294967296 ->
  chan_lookup ch (srv_channels (td_srv d)) = Some cur -> locked d ch = false ->
  exists d', tdev_step E d (THandle i) = Some (TRunning d') /\ chan_lookup ch (srv_channels (td_srv d')) = Some None /\
    td_sys d' = td_sys d /\ td_world d' = td_world d /\ td_waits d' = td_waits d /\ td_out d' = td_out d /\ td_turn d' = td_turn d /\
    td_tickers d' = td_tickers d.
Proof. exact threads_cancel. Qed.
Print Assumptions C93_incomplete_partial.

(* Before message 7, a CANCEL, channel 2 has an incomplete request. *)
Definition d7 : tdev := tstate (tlabels1 ++ removelast tlabels2).
Example C93_example : tlife (toyE true) [P0] (TUp d7) /\ ~ In 7%nat (td_taken d7) /\
  nth_error (written_of (sy_log (td_sys d7))) 7 = Some (le 4 2 ++ 0x91 :: zeros 59) /\
  (exists t, chan_lookup 2 (srv_channels (td_srv d7)) = Some (Some t)) /\ locked d7 2 = false /\ length (td_waits d7) = 1%nat /\
  Forall no_answer tlabels2 /\ td_waits d2 <> [].
Proof.
  split.
  { apply (tlife_run _ _ (removelast tlabels2) _ _ tlife1); [|vm_compute; reflexivity].
    apply Forall_forall. intros l H. cbn in H. repeat destruct H as [<-|H]; try exact I; destruct H. }
  split; [vm_compute; intuition discriminate|]. split; [vm_compute; reflexivity|].
  split; [eexists; vm_compute; reflexivity|]. split; [vm_compute; reflexivity|]. split; [vm_compute; reflexivity|].
  split; [|vm_compute; discriminate]. apply Forall_forall. intros l H. cbn in H. repeat destruct H as [<-|H]; try exact I; destruct H.
Qed.

(* ---------------------------------------------------------------- C94 *)
(* Of the answers sent to the host, those that need the user's consent are no more than the times
   the user said yes to that question. *)
Theorem C94_approved : forall E ps d, env_ok E -> Forall (params_ok E) ps -> tlife E ps (TUp d) ->
  exists now turns, Forall (reason (written_of (sy_log (td_sys d))) now) turns /\ NoDup (numbers_of turns) /\
    Permutation (numbers_of turns) (answered_requests now) /\ reads_as d turns /\
    forall a, (approved_sent a turns <= said_yes a (w_trace (td_world d)))%nat.
Proof. exact threads_approved. Qed.
Print Assumptions C94_approved.

Example C94_example : env_ok (toyE true) /\ Forall (params_ok (toyE true)) [P0] /\ tlife (toyE true) [P0] (TUp d3) /\
  needs_yes ActMakeCredential (ICtap request) (OBytes reply_bytes) = true /\
  said_yes ActMakeCredential (w_trace (td_world d3)) = 1%nat /\ said_yes ActMakeCredential (w_trace (td_world d2)) = 0%nat.
Proof.
  split; [apply toyE_ok|]. split; [constructor; [apply toyP_ok|constructor]|]. split; [exact tlife3|].
  split; [vm_compute; reflexivity|]. split; vm_compute; reflexivity.
Qed.
