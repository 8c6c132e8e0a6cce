(* Properties C20..C27: the USB/IP server. *)
From Coq Require Import String.
From Verif Require Import Base M_Util M_Usb M_ReqBuf M_Usbip S_ReqBuf S_Usbip S_UsbipSys
  P_ReqBuf P_Usb P_Usbip1 P_Usbip2 P_Usbip3.
Open Scope list_scope.

(* ---- a session used in the examples *)
Definition demo_field : bytes := ascii_bytes "2-2"%string ++ zeros 29.
Definition demo_import : message := MImport 0x0111 0 demo_field.
Definition get_device_descriptor : bytes := [0x80; 6; 0; 1; 0; 0; 18; 0].
Definition demo_messages : list message :=
  [demo_import;
   MSubmit 1 2 1 0 0 0 0 0 18 get_device_descriptor [];       (* control IN *)
   MSubmit 2 2 1 1 0 0 0 0 64 (zeros 8) [];                   (* interrupt IN *)
   MSubmit 3 2 1 1 0 0 0 0 64 (zeros 8) [];
   MSubmit 4 2 0 2 0 0 0 0 3 (zeros 8) [7; 8; 9];             (* interrupt OUT *)
   MUnlink 5 2 0 0 3 (zeros 24)].
Definition demo_stream : list bytes := map message_bytes demo_messages.
Definition demo_labels : list sys_label :=
  [SRead; SWrite; SRead; SWrite; SRead; SRead; SRespond 1 [1; 2]; SRead; SRun 0; SWrite; SRead;
   SWrite; STimeout 0; STimeout 0].

(* ---------------------------------------------------------------- C20 *)
Definition C20_full : Prop := forall stream ls s,
  Forall wfb stream -> sys_run (sys_init stream) ls = Some s ->
  NoDup (submit_seqs (sy_log s)) -> session_quiet s ->
  forall x, In x (submits_of (sy_log s)) -> hd_ep (fst (fst x)) <= 2 ->
  (answered (hd_seq (fst (fst x))) (sy_out s) + unlinks (hd_seq (fst (fst x))) (in_trace (sy_in s)) = 1)%nat.

(* a GET_DESCRIPTOR for a device qualifier (type 6) is never answered *)
Definition qualifier_stream : list bytes :=
  [message_bytes demo_import; message_bytes (MSubmit 9 2 1 0 0 0 0 0 10 [0x80; 6; 0; 6; 0; 0; 10; 0] [])].

Theorem C20_refuted : ~ C20_full.
Proof.
  intro H. specialize (H qualifier_stream [SRead; SWrite; SRead]).
  destruct (sys_run (sys_init qualifier_stream) [SRead; SWrite; SRead]) as [s|] eqn:E; [|vm_compute in E; discriminate].
  specialize (H s). vm_compute in E. injection E as <-.
  assert (Forall wfb qualifier_stream) as W
    by (repeat constructor; apply wfbb_iff; vm_compute; reflexivity).
  specialize (H W eq_refl).
  specialize (H ltac:(vm_compute; repeat constructor; intuition)).
  specialize (H ltac:(vm_compute; auto) _ (or_introl eq_refl)).
  vm_compute in H. specialize (H ltac:(discriminate)). discriminate.
Qed.
Print Assumptions C20_refuted.

(* For the submits the device supports (S_UsbipSys.supported) the statement holds: at
   most one answer at any time, none for anything else; *)
Theorem C20_at_most_one_partial : forall stream ls s,
  Forall wfb stream -> sys_run (sys_init stream) ls = Some s ->
  NoDup (submit_seqs (sy_log s)) -> forall q, q < 4294967296 ->
  (answered q (sy_out s) <= 1)%nat /\
  (answered q (sy_out s) <> 0%nat ->
   exists x, In x (submits_of (sy_log s)) /\ hd_seq (fst (fst x)) = q /\ supported x = true).
Proof. exact at_most_one. Qed.
Print Assumptions C20_at_most_one_partial.

(* exactly one answer or unlink once nothing is outstanding; *)
Theorem C20_answered_partial : forall stream ls s,
  Forall wfb stream -> sys_run (sys_init stream) ls = Some s ->
  NoDup (submit_seqs (sy_log s)) -> session_quiet s ->
  forall x, In x (submits_of (sy_log s)) ->
  (answered (hd_seq (fst (fst x))) (sy_out s) + unlinks (hd_seq (fst (fst x))) (in_trace (sy_in s)) =
   if supported x then 1 else 0)%nat.
Proof. exact quiet_answered. Qed.
Print Assumptions C20_answered_partial.

(* and that point can always be reached without the client sending anything. *)
Theorem C20_settles_partial : forall stream ls s,
  Forall wfb stream -> sys_run (sys_init stream) ls = Some s ->
  NoDup (submit_seqs (sy_log s)) ->
  exists ls' s', sys_run s ls' = Some s' /\ session_quiet s' /\ sy_log s' = sy_log s.
Proof. exact session_settles. Qed.
Print Assumptions C20_settles_partial.

Example C20_example : exists s, sys_run (sys_init demo_stream) demo_labels = Some s /\
  submit_seqs (sy_log s) = [1; 2; 3; 4] /\ session_quiet s /\
  map (fun x => supported x) (submits_of (sy_log s)) = [true; true; true; true] /\
  map (fun q => answered q (sy_out s)) [1; 2; 3; 4; 5] = [1; 1; 0; 1; 0]%nat /\
  unlinks 3 (in_trace (sy_in s)) = 1%nat /\ sy_delegate s = [[7; 8; 9]].
Proof. eexists. split; [vm_compute; reflexivity|]. vm_compute. auto 10. Qed.

(* ---------------------------------------------------------------- C21 *)
(* One reply, for any header, buffer and device response. *)
Theorem C21_ret_submit : forall h b r,
  hd_command h = 1 -> len b < 4294967296 ->
  exists payload, return_submit h b r = spec_ret_submit (hd_seq h) (len b) payload /\
    len payload = (if hd_dir h =? 1 then len b else 0) /\
    (hd_dir h = 1 -> forall data, r = Some data -> b = zeros (length b) ->
     payload = spec_transfer (len b) data).
Proof.
  intros h b r C L. eexists. split; [now apply return_submit_spec|]. split.
  - destruct (hd_dir h =? 1); auto. destruct r; auto. apply overlay_len.
  - intros -> data -> Z. cbn [N.eqb Pos.eqb]. rewrite Z at 2.
    replace (length b) with (N.to_nat (len b)) by (unfold len; lia). apply overlay_zeros.
Qed.
Print Assumptions C21_ret_submit.

(* Everything written on a connection is control replies followed by replies to logged
   requests, and a client that knows the directions reads the latter back. *)
Theorem C21_framing : forall stream ls s is_in,
  Forall wfb stream -> sys_run (sys_init stream) ls = Some s ->
  NoDup (submit_seqs (sy_log s)) ->
  (forall h st b, In (h, st, b) (submits_of (sy_log s)) -> is_in (hd_seq h) = (hd_dir h =? 1)) ->
  exists ctrl frames replies,
    sy_out s = ctrl ++ frames /\ Forall control_reply ctrl /\
    Forall2 (reply_to (sy_log s)) frames replies /\
    client_read (length frames) is_in (concat frames) = Some replies.
Proof. exact framed. Qed.
Print Assumptions C21_framing.

Example C21_example : exists s f1, sys_run (sys_init demo_stream) demo_labels = Some s /\
  client_read 4 (fun q => q <? 4) (concat (tl (sy_out s))) =
    Some [(3, 1, 0, f1); (3, 2, 0, [1; 2] ++ zeros 62); (3, 4, 0, []); (4, 5, 4294967192, [])] /\
  len f1 = 18.
Proof.
  eexists. eexists. split; [vm_compute; reflexivity|]. split; [vm_compute; reflexivity|]. reflexivity.
Qed.

(* ---------------------------------------------------------------- C22 *)
Definition C22_full : Prop := forall devices n p s1 s2,
  concat s1 = concat s2 ->
  snd (conn_run devices n (mk_conn p s1)) = snd (conn_run devices n (mk_conn p s2)).

(* conn.Read and util.Read return what the first segment holds. *)
Theorem C22_refuted : ~ C22_full.
Proof.
  intro H. specialize (H [usb_device] 1%nat (Commands 0)
    [message_bytes (MSubmit 4 2 0 2 0 0 0 0 3 (zeros 8) [7; 8; 9])]
    [head (MSubmit 4 2 0 2 0 0 0 0 3 (zeros 8) [7; 8; 9]); [7]; [8; 9]] ltac:(vm_compute; reflexivity)).
  vm_compute in H. discriminate.
Qed.
Print Assumptions C22_refuted.

(* Any segmentation of well-formed messages that cuts none of the data parts (bus id
   fields and OUT data) gives the same actions. *)
Theorem C22_segmentation_partial : forall devices ms p cs p' l,
  spec_actions devices p ms = Some (p', l) -> Forall well_formed ms -> ~ In ANone l ->
  data_uncut ms cs ->
  exists cs', conn_run devices (length ms) (mk_conn p cs) = (mk_conn p' cs', l) /\ concat cs' = [].
Proof. exact conn_run_messages. Qed.
Print Assumptions C22_segmentation_partial.

Definition demo_cut : list bytes :=
  [takeN 3 (message_bytes demo_import); []; dropN 3 (message_bytes demo_import) ++
   takeN 21 (message_bytes (MSubmit 4 2 0 2 0 0 0 0 3 (zeros 8) [7; 8; 9]));
   dropN 21 (message_bytes (MSubmit 4 2 0 2 0 0 0 0 3 (zeros 8) [7; 8; 9]))].
Example C22_example :
  let ms := [demo_import; MSubmit 4 2 0 2 0 0 0 0 3 (zeros 8) [7; 8; 9]] in
  data_uncut ms demo_cut /\ Forall well_formed ms /\
  spec_actions [usb_device] Control ms =
    Some (Commands 0, [AWrite (op_rep_import usb_device); ASubmit 0 (mk_header 1 4 2 0 2) (zeros 8) [7; 8; 9]]).
Proof.
  cbn zeta. split; [split; [vm_compute; reflexivity|]|split; [|vm_compute; reflexivity]].
  - vm_compute. repeat constructor; vm_compute; intuition discriminate.
  - repeat constructor.
Qed.

(* ---------------------------------------------------------------- C23 *)
Definition C23_full : Prop := forall devices version status cs,
  version < 65536 -> status < 4294967296 -> concat cs = message_bytes (MDevlist version status) ->
  exists rest, snd (conn_step devices (mk_conn Control cs)) =
    AWrite (be 2 0x0111 ++ be 2 0x0005 ++ be 4 0 ++ be 4 (len devices) ++ rest).

(* The reply is an empty write, whatever is exported: binary.Write rejects the slice. *)
Theorem C23_reply_is_empty : forall devices version status cs rest,
  version < 65536 -> status < 4294967296 -> concat cs = message_bytes (MDevlist version status) ++ rest ->
  exists cs', conn_step devices (mk_conn Control cs) = (mk_conn Control cs', AWrite []) /\ concat cs' = rest.
Proof.
  intros devices v st cs rest Hv Hs C.
  destruct (conn_step_message devices Control (MDevlist v st) cs rest Control (AWrite [])) as (cs' & E & _ & R);
    auto; [discriminate|split; auto| |eauto].
  unfold uncut. apply Forall_forall. intros b _. cbn [data]. change (len (@nil N)) with 0. lia.
Qed.
Print Assumptions C23_reply_is_empty.

Theorem C23_refuted : ~ C23_full.
Proof.
  intro H. destruct (H [usb_device] 0x0111 0 [message_bytes (MDevlist 0x0111 0)]) as [rest R];
    [reflexivity..|]. vm_compute in R. discriminate.
Qed.
Print Assumptions C23_refuted.

(* ---------------------------------------------------------------- C24 *)
Lemma get_device_find devices name : forall k,
  match find (fun d => bytes_eqb (dv_busid d) name) devices with
  | Some d => exists i, get_device devices name k = Some ((k + i)%nat, d) /\ nth_error devices i = Some d
  | None => get_device devices name k = None
  end.
Proof.
  induction devices as [|e devices IH]; intro k; cbn [find get_device]; auto.
  destruct (bytes_eqb (dv_busid e) name).
  - exists 0%nat. rewrite Nat.add_0_r. auto.
  - specialize (IH (S k)). destruct (find _ devices) as [d|]; auto.
    destruct IH as (i & -> & N). exists (S i). split; auto. do 2 f_equal. lia.
Qed.

Definition C24_full : Prop := forall devices version status field cs rest,
  version < 65536 -> status < 4294967296 -> len field = 32 -> wfb field ->
  concat cs = message_bytes (MImport version status field) ++ rest -> uncut cs 8 32 ->
  exists p r, conn_step devices (mk_conn Control cs) = (p, AWrite r).

(* A field without a NUL byte gets no reply: the connection is dropped. *)
Theorem C24_refuted : ~ C24_full.
Proof.
  intro H. destruct (H [usb_device] 0x0111 0 (repeat 65 32)
    [message_bytes (MImport 0x0111 0 (repeat 65 32))] []) as (p & r & E); try reflexivity.
  - apply wfbb_iff. vm_compute. reflexivity.
  - constructor; [right; vm_compute; discriminate|constructor].
  - vm_compute in E. discriminate.
Qed.
Print Assumptions C24_refuted.

(* For NUL-terminated names: the first device of that name, or status 1. *)
Theorem C24_import_partial : forall devices version status field name cs rest,
  version < 65536 -> status < 4294967296 -> len field = 32 -> named field name ->
  concat cs = message_bytes (MImport version status field) ++ rest -> uncut cs 8 32 ->
  exists cs', concat cs' = rest /\
  match find (fun d => bytes_eqb (dv_busid d) name) devices with
  | Some d => exists i, nth_error devices i = Some d /\
      conn_step devices (mk_conn Control cs) =
      (mk_conn (Commands i) cs', AWrite (be 2 0x0111 ++ be 2 0x0003 ++ be 4 0 ++ summary_bytes (dv_summary d)))
  | None =>
      conn_step devices (mk_conn Control cs) =
      (mk_conn Control cs', AWrite (be 2 0x0111 ++ be 2 0x0003 ++ be 4 1))
  end.
Proof.
  intros devices v st field name cs rest Hv Hs Lf Nm C U.
  pose proof (get_device_find devices name 0) as G.
  assert (well_formed (MImport v st field)) as W by (cbn; auto).
  assert (uncut cs (len (head (MImport v st field))) (len (data (MImport v st field)))) as U'.
  { cbn [head data]. rewrite Lf. exact U. }
  destruct (find _ devices) as [d|].
  - destruct G as (i & G & Ni). cbn [Nat.add] in G.
    destruct (conn_step_message devices Control (MImport v st field) cs rest (Commands i) (AWrite (op_rep_import d)))
      as (cs' & E & _ & R); auto; [|discriminate|].
    + cbn [spec_phase_action]. rewrite (cstring_named _ _ Nm), G. reflexivity.
    + exists cs'. split; auto. exists i. split; auto.
  - destruct (conn_step_message devices Control (MImport v st field) cs rest Control (AWrite (op_rep_import_error 1)))
      as (cs' & E & _ & R); auto; [|discriminate|].
    + cbn [spec_phase_action]. rewrite (cstring_named _ _ Nm), G. reflexivity.
    + exists cs'. split; auto.
Qed.
Print Assumptions C24_import_partial.

(* The description that follows has the protocol's layout (path and bus id are Go arrays of
   256 and 32 bytes, the rest are fixed-width integers). *)
Theorem C24_description : forall s, len (sm_path s) = 256 -> len (sm_busid s) = 32 ->
  sm_busnum s < 2 ^ 32 -> sm_devnum s < 2 ^ 32 -> sm_speed s < 2 ^ 32 ->
  sm_vendor s < 2 ^ 16 -> sm_product s < 2 ^ 16 -> sm_bcd s < 2 ^ 16 ->
  sm_class s < 256 -> sm_subclass s < 256 -> sm_protocol s < 256 ->
  sm_config s < 256 -> sm_nconfig s < 256 -> sm_ninterfaces s < 256 ->
  describes (summary_bytes s) (sm_path s) (sm_busid s)
    [sm_busnum s; sm_devnum s; sm_speed s; sm_vendor s; sm_product s; sm_bcd s;
     sm_class s; sm_subclass s; sm_protocol s; sm_config s; sm_nconfig s; sm_ninterfaces s].
Proof. exact description_layout. Qed.
Print Assumptions C24_description.

Example C24_example :
  named demo_field (ascii_bytes "2-2"%string) /\ uncut [message_bytes demo_import] 8 32 /\
  (exists r, conn_step [usb_device] (mk_conn Control [message_bytes demo_import]) =
    (mk_conn (Commands 0) [], AWrite r) /\
    describes (dropN 8 r) (ascii_bytes "/device/0"%string ++ zeros 247) demo_field
      [2; 2; 2; 0; 0; 0; 0; 0; 0; 0; 1; 1]) /\
  conn_step [usb_device] (mk_conn Control [message_bytes (MImport 0x0111 0 (ascii_bytes "3-1"%string ++ zeros 29))]) =
    (mk_conn Control [], AWrite [1; 17; 0; 3; 0; 0; 0; 1]).
Proof.
  split; [|split; [|split]].
  - exists (zeros 28). split; [reflexivity|]. vm_compute. intuition discriminate.
  - constructor; [right; vm_compute; discriminate|constructor].
  - eexists. split; vm_compute; [reflexivity|]. repeat split.
  - vm_compute. reflexivity.
Qed.

(* ---------------------------------------------------------------- C25 *)
Theorem C25_unlink : forall stream ls s c d h t,
  Forall wfb stream -> sys_run (sys_init stream) ls = Some s ->
  NoDup (submit_seqs (sy_log s)) -> sy_pending s = None ->
  conn_step [usb_device] (sy_conn s) = (c, AUnlink d h t) ->
  exists removed s1,
    sys_step s SRead = Some s1 /\ sy_pending s1 = Some (spec_ret_unlink (hd_seq h) removed) /\
    (removed = true <-> exists k, In (t, k) (rb_waiting (in_buf (sy_in s)))) /\
    (removed = true -> forall ls2 s2, sys_run s1 ls2 = Some s2 -> NoDup (submit_seqs (sy_log s2)) ->
       answered t (sy_out s2 ++ opt_list (sy_pending s2)) = 0%nat).
Proof. exact unlink_once. Qed.
Print Assumptions C25_unlink.

(* One RET_UNLINK per CMD_UNLINK, in order, and none besides. *)
Theorem C25_one_reply_each : forall stream ls s,
  Forall wfb stream -> sys_run (sys_init stream) ls = Some s ->
  NoDup (submit_seqs (sy_log s)) ->
  unlink_answers (sy_out s ++ opt_list (sy_pending s)) = map hd_seq (unlinks_of (sy_log s)).
Proof. exact unlinks_answered. Qed.
Print Assumptions C25_one_reply_each.

Example C25_example : exists s c h,
  sys_run (sys_init demo_stream) (firstn 10 demo_labels) = Some s /\ sy_pending s = None /\
  conn_step [usb_device] (sy_conn s) = (c, AUnlink 0 h 3) /\ hd_seq h = 5 /\
  rb_waiting (in_buf (sy_in s)) = [(3, 1%nat)] /\
  len (spec_ret_unlink 5 true) = 48.
Proof.
  eexists. eexists. eexists. split; [vm_compute; reflexivity|]. split; [reflexivity|].
  split; [vm_compute; reflexivity|]. vm_compute. auto.
Qed.

(* ---------------------------------------------------------------- C26 *)
(* Start serves the next connection when handle returns, i.e. the reader is Closed. *)
Definition C26_full : Prop := forall devices s,
  exists n, cn_phase (fst (conn_run devices n (mk_conn Control s))) = Closed.

Theorem C26_refuted : ~ C26_full.
Proof.
  intro H. destruct (H [usb_device] [message_bytes demo_import]) as [n Hn].
  eapply (never_returns [usb_device] (mk_conn Control [message_bytes demo_import]) 1 0); eauto.
Qed.
Print Assumptions C26_refuted.

(* Every import is fatal in this way. *)
Theorem C26_import_never_returns : forall devices c m d,
  cn_phase (fst (conn_run devices m c)) = Commands d ->
  forall n, cn_phase (fst (conn_run devices n c)) <> Closed.
Proof. exact never_returns. Qed.
Print Assumptions C26_import_never_returns.

(* A connection that never imports a device does return. *)
Theorem C26_control_returns_partial : forall devices s,
  (exists m d, cn_phase (fst (conn_run devices m (mk_conn Control s))) = Commands d) \/
  (exists n, cn_phase (fst (conn_run devices n (mk_conn Control s))) = Closed).
Proof. exact control_returns. Qed.
Print Assumptions C26_control_returns_partial.

Example C26_example :
  cn_phase (fst (conn_run [usb_device] 2 (mk_conn Control [message_bytes (MDevlist 0x0111 0)]))) = Closed /\
  cn_phase (fst (conn_run [usb_device] 9 (mk_conn Control [message_bytes demo_import]))) = Commands 0.
Proof. vm_compute. auto. Qed.

(* ---------------------------------------------------------------- C27 *)
Theorem C27_only_loopback : forall a b c d p,
  a < 256 -> b < 256 -> c < 256 -> accepted (IPv4 a b c d p) = true -> a = 127 /\ b = 0 /\ c = 0.
Proof. exact accepted_local. Qed.
Print Assumptions C27_only_loopback.

(* IPv6 clients, the loopback ::1 included, are refused. *)
Theorem C27_ipv6_refused : forall t p, accepted (IPv6 t p) = false.
Proof. exact ipv6_refused. Qed.
Print Assumptions C27_ipv6_refused.

Example C27_example :
  accepted (IPv4 127 0 0 1 50000) = true /\ accepted (IPv4 127 0 0 100 1) = true /\
  accepted (IPv4 127 0 0 2 1) = false /\ accepted (IPv4 192 168 0 1 3240) = false.
Proof. vm_compute. auto. Qed.
