(* What a client can make the USB/IP server hold and send (C157). *)
From Verif Require Import Base M_Util M_Usb M_ReqBuf M_Usbip S_Usbip S_UsbipSys P_Usbip1 P_Usbip2 S_UsbipMem P_UsbipMem.
Open Scope N_scope.

(* ------------------------------------------------- C157 *)
(* The claim; false, see C157_held_refuted and C157_sent_refuted: a thousand bytes for each
   byte of the client. *)
Definition C157_claim : Prop := forall stream ls s, wfb (concat stream) -> sys_run (sys_init stream) ls = Some s ->
  len (concat (sy_out s)) + held s <= 1000 * len (concat stream).

(* In every interleaving: one answer or one waiting request for each eight bytes received,
   answers and buffers of less than 2^32 bytes, and when the last timer has run out no buffer
   is held any more. *)
Theorem C157_bound_partial : forall stream ls s, wfb (concat stream) -> sys_run (sys_init stream) ls = Some s ->
  8 * (len (sy_out s) + len (rb_waiting (in_buf (sy_in s)))) <= len (concat stream) /\
  8 * (len (concat (sy_out s)) + held s) <= (47 + 4294967296) * len (concat stream) /\
  (in_timers (sy_in s) = [] -> held s = 0).
Proof. exact sent_bound. Qed.
Print Assumptions C157_bound_partial.

(* The length that a client announces is taken at its word: 48 bytes make the server hold as
   much as the client likes, below 2^32, until the request is answered or its timer runs out. *)
Theorem C157_held_refuted : forall n m, n < 4294967296 -> m < 4294967296 ->
  exists stream ls s, wfb (concat stream) /\ len (concat stream) = 40 + 48 * m /\
  sys_run (sys_init stream) ls = Some s /\ len (concat (sy_out s)) = 320 /\ held s = n * m.
Proof. exact held_much. Qed.
Print Assumptions C157_held_refuted.

(* And send as much: the answer to a request for the status of the device. *)
Theorem C157_sent_refuted : forall n, n < 4294967296 -> exists stream ls s, wfb (concat stream) /\ len (concat stream) = 88 /\
  sys_run (sys_init stream) ls = Some s /\ len (concat (sy_out s)) = 368 + n.
Proof. exact sent_much. Qed.
Print Assumptions C157_sent_refuted.

(* Three requests of 64 bytes wait; one is answered, one unlinked, one runs out of time. *)
Definition three : list bytes :=
  [message_bytes attach_it ++ takeN 30 (concat (asks 5 64 3)); dropN 30 (concat (asks 5 64 3)); message_bytes (MUnlink 8 0 0 0 6 (zeros 24))].
Definition three_run : list sys_label := [SRead; SWrite; SRead; SRead; SRead].
Definition three_ends : list sys_label := [SRespond 2 [9; 9]; SRead; SRun 0; SWrite; STimeout 2; STimeout 0; SRun 0; STimeout 0].

Example C157_example : wfb (concat three) /\ len (concat three) = 232 /\
  exists s, sys_run (sys_init three) three_run = Some s /\ held s = 192 /\ length (rb_waiting (in_buf (sy_in s))) = 3%nat /\
  exists t, sys_run s three_ends = Some t /\ held t = 0 /\ in_timers (sy_in t) = [] /\
    map len (sy_out t) = [320; 112; 48; 112] /\ len (concat (sy_out t)) = 592.
Proof.
  split; [apply wfbb_iff; vm_compute; reflexivity|]. split; [vm_compute; reflexivity|].
  exists (match sys_run (sys_init three) three_run with Some s => s | None => sys_init [] end).
  split; [vm_compute; reflexivity|]. split; [vm_compute; reflexivity|]. split; [vm_compute; reflexivity|].
  exists (match sys_run (sys_init three) (three_run ++ three_ends) with Some s => s | None => sys_init [] end).
  split; [vm_compute; reflexivity|]. repeat split; vm_compute; reflexivity.
Qed.

(* One request is enough against the claim. *)
Corollary claim_false : ~ C157_claim.
Proof.
  intro C. destruct (C157_sent_refuted 1000000 ltac:(reflexivity)) as (stream & ls & s & W & L & R & S).
  specialize (C stream ls s W R). rewrite L, S in C. lia.
Qed.
