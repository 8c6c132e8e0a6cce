(* Property C129: a device that is left alone comes to rest, and then everything has been answered. *)
From Verif Require Import Base M_Util M_Usb M_ReqBuf M_Usbip M_Hid M_Crypto M_Cose M_State M_Client M_Ctap M_U2f M_History
  M_Overlap M_Device M_Threads S_ReqBuf S_Usbip S_UsbipSys S_Hid S_Client S_Ctap S_History S_Device S_Overlap S_Threads S_Rest P_Hid4 P_Client
  P_Toy P_ToyHist P_Device3 P_Device4 P_Device5 C_Usbip P_History P_History2 C_History C_Device P_Threads5 C_Threads P_Rest.

(* ---------------------------------------------------------------- C129 *)
(* However the goroutines are scheduled, in whatever order the user answers and whether or not timers
   expire, the device stops working after finitely many steps; from every state there is a schedule to
   the end, at which the process has died or the device is at rest. *)
Theorem C129_settles : forall E d, settles E d.
Proof. exact all_settle. Qed.
Print Assumptions C129_settles.

Theorem C129_ends : forall E d, exists ls r, tdev_run E d ls = Some r /\ working E d ls /\
  match r with TRunning d' => at_rest E d' | TDead _ => True end.
Proof. exact reaches_rest. Qed.
Print Assumptions C129_ends.

(* In a device at rest every packet that was written is handled, nobody waits for a lock or for the
   user, ... *)
Theorem C129_nothing_left : forall E ps d, tlife E ps (TUp d) -> at_rest E d ->
  td_waits d = [] /\ td_out d = [] /\ td_turn d = None /\ in_flight (sy_in (td_sys d)) = [] /\ sy_pending (td_sys d) = None /\
  (cn_phase (sy_conn (td_sys d)) = Closed \/ concat (cn_stream (sy_conn (td_sys d))) = []) /\
  (forall i, (i < length (written_of (sy_log (td_sys d))))%nat -> In i (td_taken d)).
Proof. exact rest_nothing. Qed.
Print Assumptions C129_nothing_left.

(* ... every request that began has its answer, and a host that still has an IN transfer open has read
   all answers. *)
Theorem C129_answered : forall E ps d, tlife E ps (TUp d) -> at_rest E d ->
  exists h turns, ohistory E h (Some []) (td_world d) /\ ostarts_of h = ps /\
  let log := sy_log (td_sys d) in let now := osince_start h in
  Forall (reason (written_of log) now) turns /\ NoDup (numbers_of turns) /\
  (forall n i, In (OBegin n i) now -> from_host i = true -> exists ch r, In (Answer n ch i r) turns) /\
  (host_waits d -> NoDup (submit_seqs log) -> reads_64 log -> forall ch, 0 < ch < 4294967296 ->
     packets_read ch log (sy_out (td_sys d)) = concat (map out_packets (filter (sent_on ch) turns))).
Proof. exact rest_answered. Qed.
Print Assumptions C129_answered.

(* The session of C90: while channel 1 waits for the user the device is not at rest; when it is over it
   is, with IN transfers of the host left. *)
Example C129_example : tlife (toyE true) [P0] (TUp d1) /\ ~ at_rest (toyE true) d1 /\
  tlife (toyE true) [P0] (TUp d3) /\ at_rest (toyE true) d3 /\ host_waits d3 /\
  NoDup (submit_seqs (sy_log (td_sys d3))) /\ reads_64 (sy_log (td_sys d3)) /\ length (written_of (sy_log (td_sys d3))) = 8%nat.
Proof.
  split; [exact tlife1|]. split.
  { intro R. specialize (R (TAnswer 0) Logic.I). revert R. vm_compute. discriminate. }
  split; [exact tlife3|]. split; [apply restb_rest; vm_compute; reflexivity|].
  split; [unfold host_waits; vm_compute; discriminate|]. destruct C91_example as (_ & A & B & _).
  split; [exact A|]. split; [exact B|]. vm_compute. reflexivity.
Qed.
