(* Properties C95 to C101: the device on macOS, from the reports of the host to the
   authenticators and back. *)
From Coq Require Import Permutation.
From Verif Require Import Base M_Usb M_Hid M_Crypto M_Cose M_State M_Client M_Ctap M_U2f M_History M_Device M_Mac
  S_Hid S_Client S_History S_Device S_Mac P_Hid4 P_Toy P_ToyHist P_Mac1 P_Mac2 P_Mac3 P_Mac4 C_History C_Device.

(* ---- a session used in the examples: an INIT and a MakeCredential, all written at once; and a
   PING of 18 packets written at once or one by one *)
Definition no_junk : nat -> bytes := fun _ => repeat 0xAA 64.
Definition handled : list mac_label := [MNotify; MHandle 1 no_junk].
Definition reports (from : N) (l : list bytes) : list mac_label :=
  map (fun x => MReport (from + N.of_nat (fst x)) (snd x)) (combine (seq 0 (length l)) l).
Definition mac_driver : uc := match usb_driver_start with Ok (Some u) => u | _ => uc_init end.
Definition mac_labels : list mac_label :=
  reports 1000 session_out ++ concat (repeat handled (length session_out)).
Definition mac_dev : mac :=
  match mac_run (toyE true) (mac_init mac_driver w0) mac_labels with Some (MRunning d) => d | _ => mac_init mac_driver w0 end.
Definition long_ping : list bytes := host_send 0xFFFFFFFF 0x81 (repeat 5 1060).
Definition burst : list mac_label := reports 1 long_ping ++ concat (repeat handled 17) ++ [MNotify].
Definition paced_ping : list mac_label := concat (map (fun p => MReport 4096 p :: handled) long_ping).
Definition after (ls : list mac_label) : mac :=
  match mac_run (toyE true) (mac_init mac_driver w0) ls with Some (MRunning d) => d | _ => mac_init mac_driver w0 end.

Lemma mac_started : usb_driver_start = Ok (Some mac_driver).
Proof. reflexivity. Qed.
Lemma labels_ok_dec ls :
  forallb (fun l => match l with MReport _ r => wfbb r && (len r <=? 64) | MLocal _ => false | _ => true end) ls = true ->
  Forall (fun l => match l with MHandle _ j => j = no_junk | _ => True end) ls ->
  Forall mac_label_ok ls /\ Forall mac_no_local ls.
Proof.
  induction ls as [|l ls IH]; intros H J; [split; constructor|]. cbn in H. apply andb_prop in H as [A B].
  inversion_clear J as [|? ? J1 J2]. destruct (IH B J2). split; constructor; auto; destruct l; try exact I; try discriminate A.
  - apply andb_prop in A as [A1 A2]. split; [now apply wfbb_iff|lia].
  - subst. intro i. reflexivity.
Qed.
Lemma paced_dec ls : forallb (fun k => Nat.leb (length (reports_of (firstn k ls))) (notifies (firstn k ls) + 17)) (seq 0 (S (length ls))) = true -> paced ls.
Proof.
  intros H a b ->. rewrite forallb_forall in H. specialize (H (length a)). rewrite firstn_app, firstn_all, Nat.sub_diag in H.
  cbn [firstn] in H. rewrite app_nil_r in H. apply Nat.leb_le, H, in_seq. rewrite app_length. lia.
Qed.
Ltac labels_ok := apply labels_ok_dec; [vm_compute; reflexivity|vm_compute; repeat (constructor; [reflexivity || exact I|]); constructor].
Lemma mac_labels_ok : Forall mac_label_ok mac_labels /\ Forall mac_no_local mac_labels.
Proof. labels_ok. Qed.
Lemma mac_ran : mac_run (toyE true) (mac_init mac_driver w0) mac_labels = Some (MRunning mac_dev).
Proof. vm_compute. reflexivity. Qed.
Lemma mac_up : mac_life (toyE true) [P0] (MUp (mac_init mac_driver w0)).
Proof. apply (ML_start (toyE true) [] blank P0 w0); [apply (ML_new (toyE true))|reflexivity|exact session_started]. Qed.

(* ---------------------------------------------------------------- C95 *)
(* The driver's linked list is a first-in first-out queue: every sequence of pushes and pops,
   whatever addresses malloc returns, gives what a queue gives, never touches memory that is
   not its own, keeps exactly the queued nodes allocated, and releases them all at the end. *)
Theorem C95_list_is_a_queue : forall D (ops : list (qop D)) q out, queue_run [] ops = Some (q, out) ->
  exists h l, list_run [] ll_alloc ops = Ok (h, l, out) /\
    ll_num l = len q mod 2 ^ 32 /\
    Permutation (map (fun x => (fst x, nd_data (snd x))) h) q /\
    ll_free h l = Ok [].
Proof. exact @fifo_queue. Qed.
Print Assumptions C95_list_is_a_queue.

Example C95_example : let ops := [QPush 5 1; QPush 9 2; QPop; QPush 5 3; QPop; QPop; QPop; QPush 9 4; QPush 1 5] in
  queue_run [] ops = Some ([(9, 4); (1, 5)], [Some 1; Some 2; Some 3; None]) /\
  (exists h l, list_run [] ll_alloc ops = Ok (h, l, [Some 1; Some 2; Some 3; None]) /\ length h = 2%nat) /\
  (* an address in use is not returned by malloc *)
  queue_run [] [QPush 5 1; QPush 5 2] = None.
Proof. vm_compute. split; [reflexivity|]. split; [eexists; eexists; split; reflexivity|reflexivity]. Qed.

(* ---------------------------------------------------------------- C96 *)
(* No report of the host makes the driver or the glue write outside its own memory. *)
Definition C96_full : Prop := forall E ps d a r w, mac_life E ps (MUp d) -> wfb r -> mac_step E d (MReport a r) <> Some (MCorrupt w).

Theorem C96_long_report_refuted : exists E ps d a r w, mac_life E ps (MUp d) /\ wfb r /\ len r = 65 /\
  mac_step E d (MReport a r) = Some (MCorrupt w).
Proof.
  exists (toyE true), [P0], (mac_init mac_driver w0), 7, (zeros 65), w0. split; [exact mac_up|].
  split; [apply wfbb_iff; reflexivity|]. split; reflexivity.
Qed.
Print Assumptions C96_long_report_refuted.

(* It holds for reports of at most 64 bytes, in every state of every life; for every step; *)
Theorem C96_in_bounds_partial : forall E ps d l w, mac_life E ps (MUp d) -> mac_label_ok l -> mac_step E d l <> Some (MCorrupt w).
Proof. exact mac_safe. Qed.
Print Assumptions C96_in_bounds_partial.

(* and nothing of the driver's or the glue's uninitialised memory reaches the host. *)
Theorem C96_no_leftovers : forall E ps d ka j1 j2, mac_life E ps (MUp d) ->
  (forall i, len (j1 i) = 64) -> (forall i, len (j2 i) = 64) -> mac_step E d (MHandle ka j1) = mac_step E d (MHandle ka j2).
Proof. exact mac_no_junk. Qed.
Print Assumptions C96_no_leftovers.

(* 64 bytes are what the descriptor announces for both directions, here and over USB/IP. *)
Theorem C96_announced : report_bits fido_report_descriptor = Some (8 * 64, 8 * 64) /\ report_bits hid_report = Some (8 * 64, 8 * 64).
Proof. split; vm_compute; reflexivity. Qed.
Print Assumptions C96_announced.

(* Both descriptors announce an application collection of the FIDO usage. *)
Theorem C96_fido_usage : report_usage fido_report_descriptor = Some (0xF1D0, 1, 1) /\ report_usage hid_report = Some (0xF1D0, 1, 1).
Proof. split; vm_compute; reflexivity. Qed.
Print Assumptions C96_fido_usage.

Example C96_example : mac_life (toyE true) [P0] (MUp (after (firstn 4 mac_labels))) /\
  mc_current (after (firstn 4 mac_labels)) <> None /\
  (exists d, mac_step (toyE true) (after (firstn 4 mac_labels)) (MHandle 0 no_junk) = Some (MRunning d) /\ length (mc_host d) = 1%nat) /\
  (exists d, mac_step (toyE true) (after (firstn 4 mac_labels)) (MReport 3 (repeat 255 64)) = Some (MRunning d)) /\
  (* a descriptor with 63-byte reports would be told apart *)
  report_bits [117; 8; 149; 63; 129; 2; 149; 64; 145; 2] = Some (8 * 63, 8 * 64) /\
  (* and so would a keyboard *)
  report_usage [5; 1; 9; 6; 161; 1; 192] = Some (1, 6, 1).
Proof.
  split.
  { assert (F : Forall mac_label_ok (firstn 4 mac_labels)).
    { pose proof (proj1 mac_labels_ok) as F. rewrite <- (firstn_skipn 4 mac_labels) in F. now apply Forall_app in F as [F _]. }
    apply (mac_life_run _ _ (firstn 4 mac_labels) _ _ mac_up F). vm_compute. reflexivity. }
  split; [vm_compute; discriminate|]. split; [eexists; split; vm_compute; reflexivity|].
  split; [eexists; vm_compute; reflexivity|split; vm_compute; reflexivity].
Qed.

(* ---------------------------------------------------------------- C97 *)
(* Every report the host writes is handled, once and in order, when the run loop has nothing
   left to do. *)
Definition C97_full : Prop := forall E u w ls d, usb_driver_start = Ok (Some u) ->
  mac_run E (mac_init u w) ls = Some (MRunning d) -> Forall mac_label_ok ls -> settled d -> mc_seen d = reports_of ls.

(* A message of 18 packets written while the run loop is busy loses its first packet, and is
   not answered. *)
Theorem C97_burst_refuted : exists E u w ls d, usb_driver_start = Ok (Some u) /\
  mac_run E (mac_init u w) ls = Some (MRunning d) /\ Forall mac_label_ok ls /\ settled d /\
  reports_of ls = host_send 0xFFFFFFFF 0x81 (repeat 5 1060) /\ mc_seen d = tl (reports_of ls) /\
  host_receive 0xFFFFFFFF (mc_host d) <> Some (0x81, repeat 5 1060).
Proof.
  exists (toyE true), mac_driver, w0, burst, (after burst). split; [reflexivity|]. split; [vm_compute; reflexivity|].
  split; [refine (proj1 (_ : _ /\ Forall mac_no_local burst)); labels_ok|]. split; [split; vm_compute; reflexivity|].
  split; [vm_compute; reflexivity|]. split; [vm_compute; reflexivity|]. vm_compute. discriminate.
Qed.
Print Assumptions C97_burst_refuted.

(* It holds when the host is never more than 17 reports ahead of the run loop: what was handled is what was
   written, up to the reports still waiting. *)
Theorem C97_in_order_partial : forall E u w ls d, usb_driver_start = Ok (Some u) ->
  mac_run E (mac_init u w) ls = Some (MRunning d) -> Forall mac_label_ok ls -> paced ls ->
  mc_seen d = firstn (notifies ls) (reports_of ls) /\ (notifies ls + mc_notes d = length (reports_of ls))%nat.
Proof. exact mac_in_order. Qed.
Print Assumptions C97_in_order_partial.

(* However fast the host is, no report is handled twice, altered or out of order, and a report
   is missing only if the driver dropped it or it waits, which at most 17 do. *)
Theorem C97_at_most_once_partial : forall E u w ls d, usb_driver_start = Ok (Some u) ->
  mac_run E (mac_init u w) ls = Some (MRunning d) -> Forall mac_label_ok ls ->
  exists waiting, sub (mc_seen d ++ waiting) (reports_of ls) /\ (length waiting <= 17)%nat /\
    ll_num (uc_list (mc_uc d)) = len waiting /\
    len (reports_of ls) = len (mc_seen d) + len waiting + uc_lost (mc_uc d).
Proof. exact mac_at_most_once. Qed.
Print Assumptions C97_at_most_once_partial.

(* The run loop alone always gets to handling all the driver holds, unless a message ends the process. *)
Theorem C97_progress_partial : forall E ps d, mac_life E ps (MUp d) ->
  exists ls m, Forall works ls /\ mac_run E d ls = Some m /\
    match m with
    | MRunning d' => settled d' /\ mc_written d' = mc_written d /\
        len (mc_seen d') = len (mc_seen d) + ll_num (uc_list (mc_uc d))
    | MDead _ => True
    | MCorrupt _ => False
    end.
Proof. exact mac_progress. Qed.
Print Assumptions C97_progress_partial.

Example C97_example : usb_driver_start = Ok (Some mac_driver) /\
  mac_run (toyE true) (mac_init mac_driver w0) paced_ping = Some (MRunning (after paced_ping)) /\
  Forall mac_label_ok paced_ping /\ paced paced_ping /\ settled (after paced_ping) /\
  length (reports_of paced_ping) = 18%nat /\ mc_seen (after paced_ping) = long_ping /\
  host_receive 0xFFFFFFFF (mc_host (after paced_ping)) = Some (0x81, repeat 5 1060) /\
  ~ paced burst /\ uc_lost (mc_uc (after burst)) = 1.
Proof.
  split; [reflexivity|]. split; [vm_compute; reflexivity|].
  split; [refine (proj1 (_ : _ /\ Forall mac_no_local paced_ping)); labels_ok|]. split; [apply paced_dec; vm_compute; reflexivity|].
  split; [split; vm_compute; reflexivity|]. split; [vm_compute; reflexivity|]. split; [vm_compute; reflexivity|].
  split; [vm_compute; reflexivity|]. split; [|vm_compute; reflexivity].
  intro P. specialize (P (reports 1 long_ping) _ eq_refl). vm_compute in P. lia.
Qed.

(* ---------------------------------------------------------------- C98 *)
(* What the device does on macOS is a history in the sense of C31..C74: started with the same
   parameters; its requests since the last start were assembled from messages the run loop was
   handed, which are among the reports written; and every report the host gets has a reason. *)
Theorem C98_mac_history : forall E ps s, mac_life E ps s ->
  exists h, history E h (mac_is_up s) (mac_world_of s) /\ starts_of h = ps /\
  match s with
  | MDown _ => True
  | MUp d =>
    let now := since_start h in
    sub (mc_seen d) (mc_written d) /\ Forall (came_from (mc_seen d)) now /\
    (length (filter is_request now) <= length (mc_seen d))%nat /\
    Forall (explained (mc_seen d) now) (mc_host d)
  end.
Proof. exact mac_history. Qed.
Print Assumptions C98_mac_history.

(* A device that is down, for whatever reason, can be started again. *)
Theorem C98_mac_restarts : forall E ps w p, env_ok E -> mac_life E ps (MDown w) -> Forall (params_ok E) (ps ++ [p]) ->
  exists w' u, start E p (saved_in (w_trace w)) w = (w', Ok tt) /\ usb_driver_start = Ok (Some u) /\
    mac_life E (ps ++ [p]) (MUp (mac_init u w')).
Proof. exact mac_restarts. Qed.
Print Assumptions C98_mac_restarts.

Example C98_example : mac_life (toyE true) [P0] (MUp mac_dev) /\ mc_written mac_dev = session_out /\
  length (mc_host mac_dev) = 6%nat /\ length (cl_vault (w_client (mc_world mac_dev))) = 1%nat /\
  (exists w, mac_life (toyE true) [P0] (MDown w) /\ saved_in (w_trace w) <> None) /\
  env_ok (toyE true) /\ params_ok (toyE true) P0.
Proof.
  assert (L : mac_life (toyE true) [P0] (MUp mac_dev)) by exact (mac_life_run _ _ _ _ _ mac_up (proj1 mac_labels_ok) mac_ran).
  split; [exact L|]. split; [vm_compute; reflexivity|]. split; [vm_compute; reflexivity|]. split; [vm_compute; reflexivity|].
  split; [|split; [apply toyE_ok|apply toyP_ok]].
  assert (exists m, mac_step (toyE true) mac_dev (MReport 77 (zeros 64)) = Some m /\
    w_trace (mac_world_after m) = w_trace (mc_world mac_dev) ++ [] ++ []) as (m & S & T).
  { eexists. split; vm_compute; reflexivity. }
  eexists. split; [eapply (ML_kill _ _ mac_dev (MReport 77 (zeros 64)) m _ _ L _ S T)|]. cbn [w_trace]. vm_compute. discriminate.
  Unshelve. split; [apply wfbb_iff; reflexivity|vm_compute; discriminate].
Qed.

(* ---------------------------------------------------------------- C99 *)
(* What the host gets is what the CTAPHID server of C01..C14 answers to the messages handed to
   it, in order; *)
Theorem C99_mac_host_reads : forall E u w ls d, usb_driver_start = Ok (Some u) ->
  mac_run E (mac_init u w) ls = Some (MRunning d) -> Forall mac_label_ok ls -> Forall mac_no_local ls ->
  let o := hid_run (device_apps E) new_server w (combine (ticks_of ls) (mc_seen d)) in
  o_res o = Ok tt /\ o_srv o = mc_srv d /\ o_app o = mc_world d /\ o_packets o = mc_host d.
Proof. exact mac_runs. Qed.
Print Assumptions C99_mac_host_reads.

(* so a request on an idle channel, written without getting too far ahead, is answered by the
   authenticator, whatever was exchanged before. *)
Theorem C99_mac_transaction : forall E u w ls d ch cmd before m w' r, usb_driver_start = Ok (Some u) ->
  mac_run E (mac_init u w) ls = Some (MRunning d) -> Forall mac_label_ok ls -> Forall mac_no_local ls ->
  paced ls -> settled d ->
  reports_of ls = before ++ host_send ch cmd m ->
  0 < ch < 0xFFFFFFFF -> cmd = 0x90 \/ cmd = 0x83 -> len m <= 7609 ->
  let b := hid_run (device_apps E) new_server w (combine (firstn (length before) (ticks_of ls)) before) in
  idle (o_srv b) ch ->
  (if cmd =? 0x90 then ctap_handle E m else u2f_handle E m) (o_app b) = (w', Ok r) -> 1 <= len r <= 7609 ->
  exists reply, filter (on_channel ch) (mc_host d) = filter (on_channel ch) (o_packets b) ++ reply /\
    host_await ch reply = Some (cmd, r) /\ mc_world d = w'.
Proof. exact mac_transaction. Qed.
Print Assumptions C99_mac_transaction.

Example C99_example : mac_run (toyE true) (mac_init mac_driver w0) mac_labels = Some (MRunning mac_dev) /\
  Forall mac_label_ok mac_labels /\ Forall mac_no_local mac_labels /\ paced mac_labels /\ settled mac_dev /\
  reports_of mac_labels = [init_packet] ++ host_send 1 0x90 request /\ len request <= 7609 /\
  (let b := hid_run (device_apps (toyE true)) new_server w0 (combine (firstn 1 (ticks_of mac_labels)) [init_packet]) in
   idle (o_srv b) 1 /\ ctap_handle (toyE true) request (o_app b) = (mc_world mac_dev, Ok reply_bytes)) /\
  1 <= len reply_bytes <= 7609 /\ host_await 1 (filter (on_channel 1) (mc_host mac_dev)) = Some (0x90, reply_bytes).
Proof.
  split; [exact mac_ran|]. split; [apply mac_labels_ok|]. split; [apply mac_labels_ok|]. split; [apply paced_dec; vm_compute; reflexivity|].
  split; [split; vm_compute; reflexivity|]. split; [vm_compute; reflexivity|]. split; [vm_compute; discriminate|].
  split; [split; vm_compute; reflexivity|]. split; [split; vm_compute; discriminate|]. vm_compute. reflexivity.
Qed.

(* ---------------------------------------------------------------- C100 *)
(* A call of StopDevice without arguments stops the device. *)
Definition C100_full : Prop := forall E ps d, mac_life E ps (MUp d) ->
  exists r, external_method (mc_uc d) 4 no_args = Ok r /\ mr_ret r = KSuccess /\ uc_device (mr_uc r) = false.

(* It crashes the driver, in every state; with arguments it is refused. *)
Theorem C100_stop_refuted : (forall u, external_method u 4 no_args = Panic) /\
  (forall u a r, external_method u 4 a = Ok r -> mr_ret r = KBadArgument /\ mr_uc r = u) /\
  exists E ps d, mac_life E ps (MUp d).
Proof.
  split; [reflexivity|]. split; [|exists (toyE true), [P0], (mac_init mac_driver w0); exact mac_up].
  intros u a r H. rewrite (stop_never _ _ _ H). split; reflexivity.
Qed.
Print Assumptions C100_stop_refuted.

(* No other call, whatever its arguments, crashes the driver; a refused call changes nothing;
   and what a call gives to the host are reports of 1 to 64 bytes. *)
Theorem C100_calls_partial : forall E ps d sel a, mac_life E ps (MUp d) -> sel <> 4 ->
  exists r, external_method (mc_uc d) sel a = Ok r /\
    (mr_ret r = KBadArgument -> mr_uc r = mc_uc d /\ mr_out r = None /\ mr_reports r = []) /\
    Forall (fun p => 1 <= len p <= 64) (mr_reports r).
Proof. exact methods_total. Qed.
Print Assumptions C100_calls_partial.

Example C100_example : mac_life (toyE true) [P0] (MUp (mac_init mac_driver w0)) /\
  (exists r, external_method mac_driver 0 (mk_margs false 0 0 (Some (3 :: [1; 2; 3] ++ zeros 61)) 0) = Ok r /\
    mr_ret r = KSuccess /\ mr_reports r = [[1; 2; 3]]) /\
  (exists r, external_method mac_driver 0 (mk_margs false 0 0 (Some (65 :: zeros 64)) 0) = Ok r /\ mr_ret r = KBadArgument) /\
  (exists r, external_method mac_driver 0 (mk_margs false 0 0 (Some (3 :: zeros 63)) 0) = Ok r /\ mr_ret r = KBadArgument) /\
  (exists r, external_method mac_driver 2 (mk_margs false 0 0 None 65) = Ok r /\ mr_ret r = KNoFrames).
Proof. split; [exact mac_up|]. repeat split; eexists; repeat split. Qed.

(* ---------------------------------------------------------------- C101 *)
(* Answering messages needs no more than a fixed amount of memory for the answers. *)
Definition C101_full : Prop := exists bound, forall E ps d, mac_life E ps (MUp d) -> mc_cbytes d <= bound.

Theorem C101_leak_refuted : forall bound, exists E ps d, mac_life E ps (MUp d) /\ settled d /\ bound < mc_cbytes d.
Proof.
  intro bound. destruct (mac_unbounded (toyE true) [P0] mac_driver w0 mac_up mac_started (S (N.to_nat bound))) as (d & L & _ & S & _ & Cb).
  exists (toyE true), [P0], d. split; [exact L|]. split; [exact S|]. rewrite Cb. lia.
Qed.
Print Assumptions C101_leak_refuted.

(* What is left behind is the packets sent, and nothing else. *)
Theorem C101_leak_is_the_packets_partial : forall E ps d, mac_life E ps (MUp d) -> mc_cbytes d = 64 * len (mc_host d).
Proof. exact mac_memory. Qed.
Print Assumptions C101_leak_is_the_packets_partial.

Example C101_example : mac_life (toyE true) [P0] (MUp mac_dev) /\ mc_cbytes mac_dev = 384 /\ length (mc_host mac_dev) = 6%nat.
Proof. split; [exact (mac_life_run _ _ _ _ _ mac_up (proj1 mac_labels_ok) mac_ran)|]. split; vm_compute; reflexivity. Qed.
