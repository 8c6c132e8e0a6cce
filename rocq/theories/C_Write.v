(* Properties C120..C124: the locks of the USB/IP server, and writes that fail. *)
From Verif Require Import Base M_Util M_Usb M_ReqBuf M_Usbip M_State M_Client M_History M_Overlap M_Device M_Threads M_Write
  S_Hid S_Usbip S_UsbipSys S_Client S_Ctap S_History S_Device S_Overlap S_Threads S_Write P_Toy P_ToyHist C_Usbip P_History P_History2
  C_History C_Device C_Threads P_Write1 P_Write2 P_Write3 P_Write4.
From Coq Require Import Sorted Permutation.

(* ---- a run used in the examples: on the first connection the import reply is cut short after
   3 bytes; on the second the device is imported, and while the callback of an IN transfer writes,
   the server wants to answer an OUT transfer. *)
Notation wreply := [NLock; NDone].
Definition wlabels1 : list net_label := [NRead; NLock; NFail 3; NAccept demo_stream].
Definition wlabels2 : list net_label :=
  wlabels1 ++ [NRead] ++ wreply ++ [NRead] ++ wreply ++ [NRead; NRead; NRespond 1 [1; 2]; NCall 0; NRead].
Definition wlabels3 : list net_label := wlabels2 ++ [NCallDone 0; NLock].
Definition wplay (ls : list net_label) : option nmoved := net_run (net_init [message_bytes demo_import]) ls.
Definition wstate (ls : list net_label) : net := match wplay ls with Some (NUp n) => n | _ => net_init [] end.
Definition n1 : net := wstate wlabels1.
Definition n2 : net := wstate wlabels2.
Definition n3 : net := wstate wlabels3.

(* ---------------------------------------------------------------- C120 *)
(* Whatever is written concurrently and fails, each host reads whole replies of a run in which
   replies are written in one step (C20..C26) on what it sent itself, the last one perhaps cut
   short, and nothing follows it. *)
Theorem C120_whole_replies : forall st ls m c L, net_run (net_init st) ls = Some m -> nth_error (links_of m) c = Some L ->
  exists ls' s, sys_run (sys_init (lk_input L)) ls' = Some s /\ cut (lk_sent L) (sy_out s) /\ prefix (produced ls') (net_produced ls).
Proof. exact run_cut. Qed.
Print Assumptions C120_whole_replies.

(* At most one goroutine is inside Write, and only on the connection served. *)
Theorem C120_one_writer : forall st ls n c, net_run (net_init st) ls = Some (NUp n) ->
  (writes_to n c <= 1)%nat /\
  (writes_to n c <> 0%nat -> c = current n /\ exists l, nth_error (ne_links n) c = Some l /\ lk_locked l = true).
Proof. exact one_at_a_time. Qed.
Print Assumptions C120_one_writer.

Example C120_example : wplay wlabels2 = Some (NUp n2) /\ writes_to n2 1 = 1%nat /\ writes_to n2 0 = 0%nat /\
  (exists j, ne_job n2 = Some j /\ jb_writing j = false) /\ net_step n2 NLock = None /\
  wplay wlabels3 = Some (NUp n3) /\
  exists L0 L1 r1 r2 r3, ne_links n3 = [L0; L1] /\ lk_sent L0 = [1; 17; 0] /\ lk_locked L0 = true /\
    lk_sent L1 = concat [r1; r2; r3] /\ len r1 = 320 /\ len r2 = 66 /\ len r3 = 112 /\ takeN 2 (dropN 48 r3) = [1; 2] /\
    exists links, net_run n2 [NCallFail 0 50] = Some (NGone links) /\
      exists L1', links = [L0; L1'] /\ lk_sent L1' = concat [r1; r2] ++ takeN 50 r3.
Proof.
  do 3 (split; [vm_compute; reflexivity|]). split; [eexists; split; vm_compute; reflexivity|]. do 2 (split; [vm_compute; reflexivity|]).
  set (out := lk_sent (nth 1 (ne_links n3) (mk_link [] false []))).
  exists (nth 0 (ne_links n3) (mk_link [] false [])), (nth 1 (ne_links n3) (mk_link [] false [])), (takeN 320 out), (takeN 66 (dropN 320 out)), (dropN 386 out).
  do 8 (split; [vm_compute; reflexivity|]). eexists. split; [vm_compute; reflexivity|]. eexists. split; vm_compute; reflexivity.
Qed.

(* ---------------------------------------------------------------- C121 *)
(* A write that fails costs no more than its connection: the server can accept another one. *)
Definition C121_full : Prop := forall st ls n l m, net_run (net_init st) ls = Some (NUp n) -> ~ no_failure l ->
  net_step n l = Some m -> exists n1 ls2 n2, m = NUp n1 /\ net_run n1 ls2 = Some (NUp n2) /\ (length (ne_links n) < length (ne_links n2))%nat.

(* A failing write of a callback ends the process. *)
Theorem C121_refuted : ~ C121_full.
Proof.
  intro H. destruct (net_step n2 (NCallFail 0 50)) as [m|] eqn:E; [|vm_compute in E; discriminate E].
  destruct (H [message_bytes demo_import] wlabels2 n2 (NCallFail 0 50) m ltac:(vm_compute; reflexivity) ltac:(cbn; tauto) E) as (a & b & c & -> & _).
  vm_compute in E. discriminate E.
Qed.
Print Assumptions C121_refuted.

(* A failing write of the server, once the device is imported, leaves responseMutex locked: from
   then on no byte is written, no connection accepted, and at most one more message handled. *)
Theorem C121_hangs : forall st ls n k n' d, net_run (net_init st) ls = Some (NUp n) -> net_step n (NFail k) = Some (NUp n') ->
  cn_phase (ne_conn n') = Commands d -> forall ls2 m, net_run n' ls2 = Some m ->
  exists n2, m = NUp n2 /\ ne_links n2 = ne_links n' /\ (length (ne_delegate n2) <= S (length (ne_delegate n')))%nat.
Proof. exact fail_hangs. Qed.
Print Assumptions C121_hangs.

(* It holds for the server's writes before the import: the next connection finds a server as new,
   but for the packets the device produced meanwhile. *)
Theorem C121_before_import_partial : forall st ls n k n', net_run (net_init st) ls = Some (NUp n) ->
  net_step n (NFail k) = Some (NUp n') -> (forall d, cn_phase (ne_conn n') <> Commands d) ->
  forall s, exists n2, net_step n' (NAccept s) = Some (NUp n2) /\ as_new n2 s.
Proof. exact (fun st ls n k n' R H P => match fail_closes st ls n k n' R H with or_introl (ex_intro _ d Q) => False_ind _ (P d Q) | or_intror F => F end). Qed.
Print Assumptions C121_before_import_partial.

Example C121_example : wplay wlabels3 = Some (NUp n3) /\
  (exists n', net_step n3 (NFail 0) = Some (NUp n') /\ cn_phase (ne_conn n') = Commands 0 /\
     exists n'', net_run n' [NRead; NTimeout 0] = Some (NUp n'') /\ ne_job n'' <> None /\ net_step n'' NLock = None) /\
  wplay [NRead; NLock] = Some (NUp (wstate [NRead; NLock])) /\
  exists n', net_step (wstate [NRead; NLock]) (NFail 3) = Some (NUp n') /\ cn_phase (ne_conn n') = Closed.
Proof.
  split; [vm_compute; reflexivity|]. split.
  { eexists. split; [vm_compute; reflexivity|]. split; [vm_compute; reflexivity|]. eexists. split; [vm_compute; reflexivity|].
    split; [vm_compute; discriminate|vm_compute; reflexivity]. }
  split; [vm_compute; reflexivity|]. eexists. split; vm_compute; reflexivity.
Qed.

(* ---------------------------------------------------------------- C122 *)
(* The two locks do not deadlock: as long as no write fails, everything on its way can be written
   without any further step of the host, the device or a timer, and then all locks are free. *)
Theorem C122_no_deadlock : forall st ls n, net_run (net_init st) ls = Some (NUp n) -> Forall no_failure ls ->
  exists ls' n', Forall only_writes ls' /\ net_run n ls' = Some (NUp n') /\ all_written n'.
Proof. exact no_deadlock. Qed.
Print Assumptions C122_no_deadlock.

(* The server holds the lock of the request buffer and waits for responseMutex, which a timer's
   callback has. *)
Definition wsession : list bytes := map message_bytes [demo_import; IN 1; IN 2].
Definition wlabels4 : list net_label := [NRead] ++ wreply ++ [NRead; NTimeout 0; NCall 0; NRespond 0 [5]; NRead].
Example C122_example : exists n, net_run (net_init wsession) wlabels4 = Some (NUp n) /\ Forall no_failure wlabels4 /\
  buf_free n = false /\ map snd (ne_calls n) = [true] /\ net_step n NLock = None /\ net_step n (NRespond 0 [6]) = None /\
  exists n', net_run n [NCallDone 0; NLock; NDone] = Some (NUp n') /\ all_written n'.
Proof.
  eexists. split; [vm_compute; reflexivity|]. split; [repeat constructor|]. do 4 (split; [vm_compute; reflexivity|]).
  eexists. split; [vm_compute; reflexivity|]. vm_compute. repeat constructor.
Qed.

(* ---------------------------------------------------------------- C123 *)
(* Once another connection is accepted nothing is written to the earlier ones. *)
Theorem C123_old_connections : forall st ls n l m c, net_run (net_init st) ls = Some (NUp n) -> net_step n l = Some m ->
  (c < current n)%nat -> nth_error (links_of m) c = nth_error (ne_links n) c.
Proof. exact old_kept. Qed.
Print Assumptions C123_old_connections.

(* Each accepted connection finds a server as new. *)
Theorem C123_fresh : forall st ls n s n', net_run (net_init st) ls = Some (NUp n) -> net_step n (NAccept s) = Some (NUp n') -> as_new n' s.
Proof. exact accept_new. Qed.
Print Assumptions C123_fresh.

(* The one on which the device is imported is the last. *)
Theorem C123_last : forall st ls n d, net_run (net_init st) ls = Some (NUp n) -> cn_phase (ne_conn n) = Commands d -> ne_job n = None ->
  forall ls2 n2, net_run n ls2 = Some (NUp n2) -> length (ne_links n2) = length (ne_links n).
Proof. exact served_once. Qed.
Print Assumptions C123_last.

Example C123_example : wplay wlabels1 = Some (NUp n1) /\ current n1 = 1%nat /\ as_new n1 demo_stream /\
  wplay wlabels3 = Some (NUp n3) /\ cn_phase (ne_conn n3) = Commands 0 /\
  exists n, net_run n3 [NDone] = Some (NUp n) /\ ne_job n = None.
Proof.
  do 2 (split; [vm_compute; reflexivity|]). split; [exists [nth 0 (ne_links n1) (mk_link [] false [])], []; vm_compute; reflexivity|].
  do 2 (split; [vm_compute; reflexivity|]). eexists. split; vm_compute; reflexivity.
Qed.

(* ---------------------------------------------------------------- C124 *)
(* The whole device behind this server, with restarts and crashes: what it has done is what the
   device of C90..C94 can have done, and the host has read what that device has written, the last
   reply perhaps cut short. *)
Theorem C124_threads : forall E ps s, nlife E ps s -> match s with
  | EDown w => tlife E ps (TDown w)
  | ERuns d => exists sy old L, tlife E ps (TUp (with_sys sy (nd_rest d))) /\ ne_links (nd_net d) = old ++ [L] /\
      cut (lk_sent L) (sy_out sy) /\ sy_delegate sy = ne_delegate (nd_net d)
  end.
Proof. exact nlife_threads. Qed.
Print Assumptions C124_threads.

(* For instance, answers that need the user's consent are no more than the times the user said yes. *)
Theorem C124_approved : forall E ps d, env_ok E -> Forall (params_ok E) ps -> nlife E ps (ERuns d) ->
  exists sy old L now turns, ne_links (nd_net d) = old ++ [L] /\ cut (lk_sent L) (sy_out sy) /\
    Forall (reason (written_of (sy_log sy)) now) turns /\ NoDup (numbers_of turns) /\
    Permutation (numbers_of turns) (answered_requests now) /\ reads_as (with_sys sy (nd_rest d)) turns /\
    forall a, (approved_sent a turns <= said_yes a (w_trace (td_world (nd_rest d))))%nat.
Proof. exact nlife_approved. Qed.
Print Assumptions C124_approved.

(* The session of C_Threads: the last packet of the answer to the MakeCredential is being written. *)
Definition as_written (l : tlabel) : list ndev_label :=
  match l with
  | TRead => [ENet NRead] | TWrite => [ENet NLock; ENet NDone] | TRun i => [ENet (NCall i); ENet (NCallDone i)]
  | TTimeout i => [ENet (NTimeout i)] | TPut c => [EPut c] | TAccept s => [ENet (NAccept s)]
  | _ => [EDev l]
  end.
Definition elabels : list ndev_label :=
  flat_map as_written (tlabels1 ++ tlabels2 ++ [TAnswer 0; TGrab 0; TPut 0; TRun 0; TPut 0; TRun 0; TPut 0; TRun 0; TPut 0]) ++ [ENet (NCall 0)].
Definition e1 : ndev := match ndev_run (toyE true) (ndev_init tsession w0) elabels with Some d => d | None => ndev_init [] w0 end.
Lemma elife1 : nlife (toyE true) [P0] (ERuns e1).
Proof.
  apply (nlife_run (toyE true) [P0] elabels (ndev_init tsession w0)).
  - apply (E_start (toyE true) [] blank P0 w0); [apply (E_new (toyE true))|apply tsession_wfb|exact session_started].
  - apply Forall_forall. intros l H. cbn in H. repeat destruct H as [<-|H]; try exact I; destruct H.
  - vm_compute. reflexivity.
Qed.
Example C124_example : nlife (toyE true) [P0] (ERuns e1) /\ writes_to (nd_net e1) 0 = 1%nat /\
  ne_delegate (nd_net e1) = tsession_out /\ said_yes ActMakeCredential (w_trace (td_world (nd_rest e1))) = 1%nat /\
  ndev_step (toyE true) e1 (ENet (NCallFail 0 60)) = Some (EGone (td_world (nd_rest e1))) /\
  nlife (toyE true) [P0] (EDown (td_world (nd_rest e1))) /\ length (cl_vault (w_client (td_world (nd_rest e1)))) = 1%nat.
Proof.
  split; [exact elife1|]. do 3 (split; [vm_compute; reflexivity|]).
  assert (ndev_step (toyE true) e1 (ENet (NCallFail 0 60)) = Some (EGone (td_world (nd_rest e1)))) as S by (vm_compute; reflexivity).
  split; [exact S|]. split; [exact (E_panic (toyE true) [P0] e1 (ENet (NCallFail 0 60)) _ elife1 I S)|vm_compute; reflexivity].
Qed.
