(* Properties C78 and C79: the whole device, from the bytes on the connection to the
   authenticators and back. *)
From Verif Require Import Base M_Util M_Usb M_ReqBuf M_Usbip M_Hid M_Crypto M_Cose M_State M_Client M_Ctap M_U2f M_History
  M_Device S_ReqBuf S_Usbip S_UsbipSys S_Hid S_Client S_Ctap S_History S_Device P_Hid4 P_Client P_Toy P_ToyHist
  P_Device3 P_Device4 P_Device5 C_Usbip P_History P_History2 C_History.

(* ---- a session used in the examples: import, 12 IN transfers, an INIT and a MakeCredential *)
Definition OUT (seq : N) (p : bytes) : message := MSubmit seq 2 0 2 0 0 0 0 (len p) (zeros 8) p.
Definition IN (seq : N) : message := MSubmit seq 2 1 1 0 0 0 0 64 (zeros 8) [].
Definition nonce : bytes := [9; 8; 7; 6; 5; 4; 3; 2].
Definition init_packet : bytes := le 4 0xFFFFFFFF ++ [0x86] ++ be 2 8 ++ nonce ++ zeros 49.
Definition request : bytes := Eval vm_compute in msg_mc rpA None.
Definition session_out : list bytes := init_packet :: host_send 1 0x90 request.
Definition session : list bytes :=
  map message_bytes (demo_import :: map (fun i => IN (N.of_nat i)) (seq 1 12) ++
    map (fun x => OUT (100 + N.of_nat (fst x)) (snd x)) (combine (seq 0 (length session_out)) session_out)).
Definition session_labels : list dev_label :=
  [DRead; DWrite] ++ repeat DRead 12 ++ concat (repeat [DRead; DWrite] (length session_out)) ++
  map (fun i => DHandle i 1) (seq 0 (length session_out)) ++ concat (repeat [DSend 0; DRun 0] 6).
Definition w0 : world := last_world [MvStart P0].
Definition session_end : option moved := dev_run (toyE true) (dev_init session w0) session_labels.
Definition session_dev : M_Device.dev := match session_end with Some (Running d) => d | _ => dev_init [] w0 end.
Definition reply_bytes : bytes := match ctap_handle (toyE true) request w0 with (_, Ok r) => r | _ => [] end.

Lemma session_wfb : Forall wfb session.
Proof.
  assert (forallb wfbb session = true) as H by (vm_compute; reflexivity).
  rewrite forallb_forall in H. apply Forall_forall. intros x Hx. now apply wfbb_iff, H.
Qed.
Lemma session_ran : dev_run (toyE true) (dev_init session w0) session_labels = Some (Running session_dev).
Proof. vm_compute. reflexivity. Qed.
Lemma session_ok : Forall label_ok session_labels /\ Forall no_local session_labels.
Proof. split; apply Forall_forall; intros l H; cbn in H; repeat destruct H as [<-|H]; try exact I; destruct H. Qed.
Lemma session_started : start (toyE true) P0 None blank = (w0, Ok tt).
Proof. vm_compute. reflexivity. Qed.

(* ---------------------------------------------------------------- C78 *)
(* Whatever the host sends and however the goroutines, restarts and crashes fall, what the
   device did is a history in the sense of C31..C74: one started with the same parameters, whose
   requests since the last start were assembled from what the host wrote in this connection,
   no more than it wrote packets; and every frame on the wire has a reason in it. *)
Theorem C78_history : forall E ps s, life E ps s ->
  exists h, history E h (is_up s) (world_of s) /\ starts_of h = ps /\
  match s with
  | Down _ => True
  | Up d =>
    let log := sy_log (de_sys d) in let now := since_start h in
    Forall (came_from (written_of log)) now /\
    (length (filter is_request now) <= length (written_of log))%nat /\
    Forall (on_wire log (explained (written_of log) now)) (sy_out (de_sys d))
  end.
Proof. exact device_history. Qed.
Print Assumptions C78_history.

(* The device gets what the host wrote to the OUT endpoint, in that order. *)
Theorem C78_written_in_order : forall stream ls s, Forall wfb stream ->
  sys_run (sys_init stream) ls = Some s -> sy_delegate s = written_of (sy_log s).
Proof. exact delegated. Qed.
Print Assumptions C78_written_in_order.

(* A device that is down, for whatever reason, can be started again. *)
Theorem C78_restarts : forall E ps w p, env_ok E -> life E ps (Down w) -> Forall (params_ok E) (ps ++ [p]) ->
  exists w', start E p (saved_in (w_trace w)) w = (w', Ok tt).
Proof. exact device_restarts. Qed.
Print Assumptions C78_restarts.

Example C78_example : life (toyE true) [P0] (Up session_dev) /\
  written_of (sy_log (de_sys session_dev)) = session_out /\ length (sy_out (de_sys session_dev)) = 10%nat /\
  length (cl_vault (w_client (de_world session_dev))) = 1%nat /\
  (* killed while it handles the last packet, after what was saved *)
  (exists w, life (toyE true) [P0] (Down w) /\ saved_in (w_trace w) <> None) /\
  params_ok (toyE true) P0.
Proof.
  assert (L : life (toyE true) [P0] (Up (dev_init session w0))).
  { apply (L_start (toyE true) [] blank P0 w0); [apply (L_new (toyE true))|apply session_wfb|exact session_started]. }
  split; [exact (life_run _ _ _ _ _ L (proj1 session_ok) session_ran)|].
  split; [vm_compute; reflexivity|]. split; [vm_compute; reflexivity|]. split; [vm_compute; reflexivity|].
  split; [|apply toyP_ok].
  assert (exists d m, dev_run (toyE true) (dev_init session w0)
      ([DRead; DWrite] ++ repeat DRead 12 ++ concat (repeat [DRead; DWrite] 3) ++ [DHandle 0 0; DHandle 1 0]) = Some (Running d) /\
    dev_step (toyE true) d (DHandle 2 0) = Some m /\ w_trace (world_after m) = w_trace (de_world d) ++ w_trace (world_after m) ++ [] /\
    saved_in (w_trace (world_after m)) <> None) as (d & m & R & S & T & Q).
  { eexists. eexists. split; [vm_compute; reflexivity|]. split; [vm_compute; reflexivity|].
    split; [vm_compute; reflexivity|]. vm_compute. discriminate. }
  eexists. split; [eapply (L_kill _ _ d (DHandle 2 0) m _ _ (life_run _ _ _ _ _ L _ R) _ S T)|].
  cbn [w_trace]. rewrite T, app_nil_r in Q. exact Q.
  Unshelve. 2: exact I. repeat (constructor; [exact I|]). constructor.
Qed.

(* ---------------------------------------------------------------- C79 *)
(* When the messages are handled in the order they were written, what the host reads on a
   channel is what the CTAPHID server of C01..C14 answers to what the host wrote, in order;
   something is missing only while it is on its way. *)
Theorem C79_host_reads : forall E w s ls d n ch, Forall wfb s -> dev_run E (dev_init s w) ls = Some (Running d) ->
  Forall label_ok ls -> Forall no_local ls -> handled_of ls = seq 0 n ->
  let log := sy_log (de_sys d) in
  NoDup (submit_seqs log) -> reads_64 log -> 0 < ch < 4294967296 ->
  let o := hid_run (device_apps E) new_server w (combine (keepalives_of ls) (firstn n (written_of log))) in
  o_res o = Ok tt /\ o_app o = de_world d /\ o_srv o = de_srv d /\
  exists later, packets_read ch log (sy_out (de_sys d)) ++ later = filter (on_channel ch) (o_packets o) /\
    (drained d -> later = []).
Proof. exact host_reads. Qed.
Print Assumptions C79_host_reads.

(* So a request on an idle channel is answered by the authenticator, whatever was exchanged before; *)
Theorem C79_transaction : forall E w s ls d ch cmd before m w' r, Forall wfb s ->
  dev_run E (dev_init s w) ls = Some (Running d) -> Forall label_ok ls -> Forall no_local ls ->
  let log := sy_log (de_sys d) in
  handled_of ls = seq 0 (length (written_of log)) -> NoDup (submit_seqs log) -> reads_64 log -> drained d ->
  written_of log = before ++ host_send ch cmd m ->
  0 < ch < 0xFFFFFFFF -> cmd = 0x90 \/ cmd = 0x83 -> len m <= 7609 ->
  let b := hid_run (device_apps E) new_server w (combine (firstn (length before) (keepalives_of ls)) before) in
  idle (o_srv b) ch ->
  (if cmd =? 0x90 then ctap_handle E m else u2f_handle E m) (o_app b) = (w', Ok r) -> 1 <= len r <= 7609 ->
  exists reply, packets_read ch log (sy_out (de_sys d)) = filter (on_channel ch) (o_packets b) ++ reply /\
    host_await ch reply = Some (cmd, r) /\ de_world d = w'.
Proof. exact device_transaction. Qed.
Print Assumptions C79_transaction.

(* and a host that asks for a channel and uses it gets both answers. *)
Theorem C79_first_request : forall E w s ls d id cmd nonce junk m w' r, Forall wfb s ->
  dev_run E (dev_init s w) ls = Some (Running d) -> Forall label_ok ls -> Forall no_local ls ->
  let log := sy_log (de_sys d) in let out := sy_out (de_sys d) in
  handled_of ls = seq 0 (length (written_of log)) -> NoDup (submit_seqs log) -> reads_64 log -> drained d ->
  written_of log = (le 4 0xFFFFFFFF ++ [0x86] ++ be 2 8 ++ nonce ++ junk) :: host_send id cmd m ->
  len nonce = 8 -> init_ids (packets_read 0xFFFFFFFF log out) = [id] ->
  cmd = 0x90 \/ cmd = 0x83 -> len m <= 7609 ->
  (if cmd =? 0x90 then ctap_handle E m else u2f_handle E m) w = (w', Ok r) -> 1 <= len r <= 7609 ->
  host_receive 0xFFFFFFFF (packets_read 0xFFFFFFFF log out) = Some (0x86, nonce ++ le 4 id ++ [2; 0; 0; 1; 4]) /\
  host_await id (packets_read id log out) = Some (cmd, r) /\ de_world d = w'.
Proof. exact device_first_request. Qed.
Print Assumptions C79_first_request.

(* The goroutines that deliver packets can always finish on their own; then a packet is left
   only if the host has no transfer waiting. *)
Theorem C79_delivers : forall E ps d, life E ps (Up d) ->
  exists ls d', dev_run E d ls = Some (Running d') /\ Forall delivers ls /\ life E ps (Up d') /\
    de_queue d' = [] /\ in_flight (sy_in (de_sys d')) = [] /\ sy_pending (de_sys d') = None /\
    (rb_responses (in_buf (sy_in (de_sys d'))) = [] \/ rb_waiting (in_buf (sy_in (de_sys d'))) = []) /\
    de_world d' = de_world d /\ sy_log (de_sys d') = sy_log (de_sys d).
Proof. exact device_delivers. Qed.
Print Assumptions C79_delivers.

Lemma reads_64_check log : forallb (fun x => let '(h, _, b) := x in negb (hd_ep h =? 1) || (hd_dir h =? 1) && (len b =? 64))
  (submits_of log) = true -> reads_64 log.
Proof.
  rewrite forallb_forall. intros H h st b Hi He. specialize (H _ Hi). cbn in H. rewrite He, N.eqb_refl in H.
  cbn in H. apply andb_prop in H as [H1 H2]. split; now apply N.eqb_eq.
Qed.

(* The session meets every hypothesis; a keepalive precedes the answer. *)
Example C79_example :
  let log := sy_log (de_sys session_dev) in let out := sy_out (de_sys session_dev) in
  handled_of session_labels = seq 0 3 /\ length (written_of log) = 3%nat /\
  NoDup (submit_seqs log) /\ reads_64 log /\ drained session_dev /\
  written_of log = (le 4 0xFFFFFFFF ++ [0x86] ++ be 2 8 ++ nonce ++ zeros 49) :: host_send 1 0x90 request /\
  init_ids (packets_read 0xFFFFFFFF log out) = [1] /\
  ctap_handle (toyE true) request w0 = (de_world session_dev, Ok reply_bytes) /\ 1 <= len reply_bytes <= 7609 /\
  length (packets_read 1 log out) = 5%nat /\ host_await 1 (packets_read 1 log out) = Some (0x90, reply_bytes) /\
  registered reply_bytes (match read_reg reply_bytes with Some (i, _, _) => i | None => [] end)
    (match read_reg reply_bytes with Some (_, x, _) => x | None => 0 end)
    (match read_reg reply_bytes with Some (_, _, y) => y | None => 0 end).
Proof.
  cbv zeta. split; [vm_compute; reflexivity|]. split; [vm_compute; reflexivity|].
  split; [vm_compute; repeat (apply NoDup_cons; [cbn; intuition discriminate|]); apply NoDup_nil|].
  split; [apply reads_64_check; vm_compute; reflexivity|].
  split; [split; [|split]; vm_compute; reflexivity|]. split; [vm_compute; reflexivity|]. split; [vm_compute; reflexivity|].
  split; [vm_compute; reflexivity|]. split; [vm_compute; split; discriminate|]. split; [vm_compute; reflexivity|].
  split; [vm_compute; reflexivity|]. apply read_reg_ok. vm_compute. reflexivity.
Qed.
