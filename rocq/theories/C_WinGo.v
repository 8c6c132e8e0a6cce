(* The bundled Windows client attached to the Go server (C150). *)
From Verif Require Import P_WinMem Base M_Util M_ReqBuf M_Usbip S_Usbip P_Usbip1 M_WinFwd M_WinDrv S_WinFwd S_WinDrv P_WinDrv P_WinDrv2 P_WinOnce P_WinAns3 S_WinGo P_WinGo2
  C_WinDrv C_WinAns.
Open Scope N_scope.

(* ------------------------------------------------- C150 *)
(* For every run of the client as in C145, whose control transfers bring no data to the
   device, and every run of the server on what it has read of the client's messages: the
   server has written nothing, or the reply to the request to attach and then honest
   replies as C148 and C149 ask for them. *)
Theorem C150_fair_partial : forall devid mx bl ls w, devid < 4294967296 -> 48 <= mx -> mx + bl < 4294967296 -> mx <= 2147483648 ->
  Forall (fun x => known (snd x)) (submitted ls) -> Forall (fun x => brings_none (snd x)) (submitted ls) ->
  Forall (fun x => len (buffer (snd x)) + 48 <= mx) (submitted ls) ->
  NoDup (map fst (submitted ls)) -> orderly devid ls -> N.of_nat (length ls) < 4294967296 ->
  win_run (win0 devid) ls = Some (Ok w) -> (forall side, calm bl side (wi_steps w)) ->
  exists es ms, subseq (blocks es) (submitted ls) /\ say_all devid 1 es ms /\
    prefix (concat (pi_out (fw_req (wi_fwd w)))) (concat (map message_bytes ms)) /\
    forall attach stream sl s, attaches attach -> reaches attach (concat (pi_out (fw_req (wi_fwd w)))) ms stream ->
      sys_run (sys_init stream) sl = Some s ->
      exists rs, Forall (fair_one (wi_drv w)) rs /\ Forall (fun r => len (reply_wire r) <= mx) rs /\
        (sy_out s = [] /\ rs = [] \/ sy_out s = op_rep_import usb_device :: map reply_wire rs).
Proof.
  intros devid mx bl ls w d32 mx48 room half kn br sm dis ord sh run cm.
  destruct (session_messages devid mx bl ls w) as (es & S1 & S2 & S3); auto.
  exists es, (messages (wi_drv w)). split; [exact S1|]. split; [exact S2|]. split; [exact S3|].
  intros attach stream sl s A R E.
  destruct (session_replies devid mx bl ls w d32 mx48 room half kn br sm dis ord sh run cm attach stream sl s A R E) as (rs & _ & F).
  exists rs. exact F.
Qed.
Print Assumptions C150_fair_partial.

(* So, for as long as the forwarder remembers the requests: a block that ended was
   cancelled, or tells what the device gave or took (from_device). *)
Theorem C150_outcomes_partial : forall devid mx bl ls w, devid < 4294967296 -> 48 <= mx -> mx + bl < 4294967296 -> mx <= 2147483648 ->
  Forall (fun x => known (snd x)) (submitted ls) -> Forall (fun x => brings_none (snd x)) (submitted ls) ->
  Forall (fun x => len (buffer (snd x)) + 48 <= mx) (submitted ls) ->
  NoDup (map fst (submitted ls)) -> orderly devid ls -> N.of_nat (length ls) < 4294967296 ->
  win_run (win0 devid) ls = Some (Ok w) -> (forall side, calm bl side (wi_steps w)) ->
  remembered (wi_drv w) (fw_log (wi_fwd w)) ->
  exists es ms, subseq (blocks es) (submitted ls) /\ say_all devid 1 es ms /\
    prefix (concat (pi_out (fw_req (wi_fwd w)))) (concat (map message_bytes ms)) /\
    forall attach stream sl s, attaches attach -> reaches attach (concat (pi_out (fw_req (wi_fwd w)))) ms stream ->
      sys_run (sys_init stream) sl = Some s -> comes_back (sy_out s) (pi_in (fw_rep (wi_fwd w))) ->
      forall id o, In (id, o) (dr_done (wi_drv w)) -> exists u, In (id, u) (submitted ls) /\
        (In id (cancelled ls) /\ o = mk_outcome Cancelled (len (buffer u)) (buffer u) \/ from_device s u o).
Proof.
  intros devid mx bl ls w d32 mx48 room half kn br sm dis ord sh run cm rem.
  destruct (session_messages devid mx bl ls w) as (es & S1 & S2 & S3); auto.
  exists es, (messages (wi_drv w)). split; [exact S1|]. split; [exact S2|]. split; [exact S3|].
  intros attach stream sl s A R E B.
  exact (session_outcomes devid mx bl ls w d32 mx48 room half kn br sm dis ord sh run cm attach stream sl s A R E rem (or_intror B)).
Qed.
Print Assumptions C150_outcomes_partial.

(* And the driver stays within its memory in the next step, when the forwarder does. *)
Theorem C150_safe_partial : forall devid mx bl ls w, devid < 4294967296 -> 48 <= mx -> mx + bl < 4294967296 -> mx <= 2147483648 ->
  Forall (fun x => known (snd x)) (submitted ls) -> Forall (fun x => brings_none (snd x)) (submitted ls) ->
  Forall (fun x => len (buffer (snd x)) + 48 <= mx) (submitted ls) ->
  NoDup (map fst (submitted ls)) -> orderly devid ls -> N.of_nat (length ls) + 1 < 4294967296 ->
  win_run (win0 devid) ls = Some (Ok w) -> (forall side, calm bl side (wi_steps w)) ->
  remembered (wi_drv w) (fw_log (wi_fwd w)) -> fwd_step (wi_fwd w) Iterate <> Some Panic ->
  (forall g, fwd_step (wi_fwd w) Iterate = Some (Ok g) -> remembered (wi_drv w) (fw_log g)) ->
  exists es ms, subseq (blocks es) (submitted ls) /\ say_all devid 1 es ms /\
    prefix (concat (pi_out (fw_req (wi_fwd w)))) (concat (map message_bytes ms)) /\
    forall attach stream sl s, attaches attach -> reaches attach (concat (pi_out (fw_req (wi_fwd w)))) ms stream ->
      sys_run (sys_init stream) sl = Some s -> comes_back (sy_out s) (pi_in (fw_rep (wi_fwd w))) ->
      forall l, win_step w l <> Some Panic.
Proof.
  intros devid mx bl ls w d32 mx48 room half kn br sm dis ord sh run cm rem np rem'.
  assert (N.of_nat (length ls) < 4294967296) as sh' by lia.
  destruct (session_messages devid mx bl ls w) as (es & S1 & S2 & S3); auto.
  exists es, (messages (wi_drv w)). split; [exact S1|]. split; [exact S2|]. split; [exact S3|].
  intros attach stream sl s A R E B l.
  exact (session_safe devid mx bl ls w d32 mx48 room half kn br sm dis ord sh' run cm attach stream sl s A R E rem (or_intror B) l sh np rem').
Qed.
Print Assumptions C150_safe_partial.

(* The run of C146, whose messages the server gets in two pieces; it answers. *)
Definition attach2 : message := MImport 0x0111 0 ([50; 45; 50] ++ zeros 29).
Definition said : list message :=
  [spec_message dev 1 device18; spec_message dev 2 out3b; spec_message dev 3 in64b; MUnlink 4 dev 0 0 0 (zeros 24)].
Definition go_stream : list bytes :=
  [message_bytes attach2 ++ takeN 20 (concat (map message_bytes said)); dropN 20 (concat (map message_bytes said))].
Definition go_labels : list sys_label :=
  [SRead; SWrite; SRead; SWrite; SRead; SWrite; SRead; SRead; SRespond 0 [1; 2; 3]; SRun 0; SWrite].
Definition go_state : sys := match sys_run (sys_init go_stream) go_labels with Some s => s | None => sys_init [] end.
Definition go_frame (k : nat) : bytes := nth (S k) (sy_out go_state) [].
Definition session_run : list win_label :=
  full_run ++ [WGot (takeN 48 (go_frame 0)); WLoop []; WGot (dropN 48 (go_frame 0)); WLoop []; WLoop []; WWritten;
    WGot (go_frame 1); WLoop []; WLoop []; WWritten; WLoop [];
    WGot (takeN 48 (go_frame 2)); WLoop []; WGot (dropN 48 (go_frame 2)); WLoop []; WLoop []; WWritten;
    WGot (go_frame 3); WLoop []; WLoop []; WWritten; WLoop []].

Example C150_example : exists w, win_run (win0 dev) session_run = Some (Ok w) /\
  Forall (fun x => known (snd x)) (submitted session_run) /\ Forall (fun x => brings_none (snd x)) (submitted session_run) /\
  Forall (fun x => len (buffer (snd x)) + 48 <= 112) (submitted session_run) /\
  NoDup (map fst (submitted session_run)) /\ orderly dev session_run /\ (forall side, calm 320 side (wi_steps w)) /\
  remembered (wi_drv w) (fw_log (wi_fwd w)) /\
  concat (pi_out (fw_req (wi_fwd w))) = concat (map message_bytes said) /\
  attaches attach2 /\ reaches attach2 (concat (map message_bytes said)) said go_stream /\
  sys_run (sys_init go_stream) go_labels = Some go_state /\ comes_back (sy_out go_state) (pi_in (fw_rep (wi_fwd w))) /\
  sy_delegate go_state = [[7; 8; 9]] /\
  dr_done (wi_drv w) = [(3%nat, mk_outcome Cancelled 64 (zeros 64));
    (1%nat, mk_outcome Success 18 [18; 1; 16; 1; 0; 0; 0; 64; 0; 0; 0; 0; 1; 0; 1; 2; 3; 1]);
    (2%nat, mk_outcome Success 3 [7; 8; 9]); (4%nat, mk_outcome Success 64 ([1; 2; 3] ++ zeros 61))].
Proof.
  exists (reached session_run). split; [vm_compute; reflexivity|]. split; [exact blocks_known|].
  split; [repeat constructor|]. split; [repeat constructor; vm_compute; discriminate|].
  split; [change (NoDup [1%nat; 2%nat; 3%nat; 4%nat]); repeat constructor; cbn; intuition discriminate|].
  split; [apply orderly_b_ok; vm_compute; reflexivity|].
  split; [intro side; apply (calm_short _ (wi_fwd (reached session_run)) 320 side); [vm_compute; reflexivity|destruct side; vm_compute; discriminate]|].
  split; [apply remembered_b_ok; vm_compute; reflexivity|].
  split; [vm_compute; reflexivity|].
  split; [exists 0x0111, 0, ([50; 45; 50] ++ zeros 29); split; [reflexivity|]; split; [vm_compute; auto|]; exists (zeros 28); split; [reflexivity|cbn; intuition discriminate]|].
  split; [split; [|split]|].
  - repeat constructor; apply wfbb_iff; vm_compute; reflexivity.
  - exists []. vm_compute. reflexivity.
  - vm_compute. repeat constructor; vm_compute; intuition discriminate.
  - split; [vm_compute; reflexivity|]. split; [exists []; vm_compute; reflexivity|]. split; vm_compute; reflexivity.
Qed.

(* A control transfer that brings a byte to the device (here with SET_CONFIGURATION, which
   the device takes): the server's reply makes the driver copy a byte from behind it. *)
Definition out_config : urb := ControlEx 0 2 [0; 9; 1; 0; 0; 0; 1; 0] [7].
Definition config_said : list message := [spec_message dev 1 out_config].
Definition config_stream : list bytes := [message_bytes attach2; concat (map message_bytes config_said)].
Definition config_labels : list sys_label := [SRead; SWrite; SRead; SWrite].
Definition config_state : sys := match sys_run (sys_init config_stream) config_labels with Some s => s | None => sys_init [] end.
Definition config_run : list win_label :=
  [WLoop []; WSubmit 1 out_config; WReadDone; WLoop []; WReadDone; WLoop []; WLoop []; WSent 49; WLoop [];
   WGot (concat (tl (sy_out config_state)))].

Theorem C150_control_refuted : exists ls w stream sl s, win_run (win0 dev) ls = Some (Ok w) /\ orderly dev ls /\
  submitted ls = [(1%nat, out_config)] /\ known out_config /\
  concat (pi_out (fw_req (wi_fwd w))) = message_bytes (spec_message dev 1 out_config) /\
  reaches attach2 (concat (pi_out (fw_req (wi_fwd w)))) [spec_message dev 1 out_config] stream /\
  sys_run (sys_init stream) sl = Some s /\ comes_back (sy_out s) (pi_in (fw_rep (wi_fwd w))) /\
  win_step w (WLoop []) = Some Panic.
Proof.
  exists config_run, (reached config_run), config_stream, config_labels, config_state. split; [vm_compute; reflexivity|].
  split; [apply orderly_b_ok; vm_compute; reflexivity|]. split; [reflexivity|].
  split; [split; [reflexivity|split; reflexivity]|]. split; [vm_compute; reflexivity|]. split; [split; [|split]|].
  - repeat constructor; apply wfbb_iff; vm_compute; reflexivity.
  - exists []. vm_compute. reflexivity.
  - vm_compute. repeat constructor; vm_compute; intuition discriminate.
  - split; [vm_compute; reflexivity|]. split; [exists []; vm_compute; reflexivity|]. vm_compute. reflexivity.
Qed.
Print Assumptions C150_control_refuted.
